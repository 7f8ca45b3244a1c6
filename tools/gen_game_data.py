#!/usr/bin/env python3
"""Translate the shipped job definitions into terms of the mini-Python syntax of
rocq/theories/Py.v.

Reads /repo/ama_xiv_combat_sim/simulator/game_data/class_skills/*/*.py as text
(parsed with `ast`, never executed) and writes one rocq/theories/Data_XXX.v per
job.  The translation is node by node; any construct outside the supported
subset stops the script.

usage: gen_game_data.py [repo] [output directory]
"""
import ast
import glob
import os
import sys

REPO = sys.argv[1] if len(sys.argv) > 1 else "/repo"
OUT = sys.argv[2] if len(sys.argv) > 2 else "/verif/rocq/theories"
BASE = REPO + "/ama_xiv_combat_sim/simulator/game_data/class_skills/"

VERSIONS = {"6.55": "V655", "7.0": "V70", "7.01": "V701", "7.05": "V705", "7.1": "V71"}
CTORS = {
    "Skill", "DamageSpec", "TimingSpec", "StatusEffectSpec", "FollowUp", "ComboSpec",
    "JobResourceSpec", "JobResourceSettings", "ChannelingSpec",
    "tuple", "int", "max", "min", "range",
}
CONSTS = {
    "SimConsts.DEFAULT_CONDITION", "math.inf", "np.inf",
    "GameConsts.DAMAGE_SNAPSHOT_TIME_BEFORE_CAST_FINISHES",
    "ForcedCritOrDH.FORCE_YES", "ForcedCritOrDH.FORCE_NO", "ForcedCritOrDH.DEFAULT",
    "DamageClass.PET", "DamageClass.AUTO", "DamageClass.PHYSICAL_DOT",
    "DamageClass.MAGICAL_DOT", "DamageClass.DIRECT",
}
CMP = {ast.Lt: "OLt", ast.LtE: "OLe", ast.Gt: "OGt", ast.GtE: "OGe", ast.Eq: "OEq", ast.NotEq: "ONe"}
BIN = {ast.Add: "BAdd", ast.Sub: "BSub", ast.Mult: "BMul", ast.Div: "BDiv", ast.BitOr: "BOr"}


class Unsupported(Exception):
    pass


def bad(n, why=""):
    raise Unsupported(f"line {getattr(n, 'lineno', '?')}: {why} {ast.dump(n)[:300]}")


def s(x):
    assert all(32 <= ord(c) < 127 for c in x), x
    return '"' + x.replace('"', '""') + '"'


def z(n):
    return f"({n})" if n < 0 else str(n)


def lst(xs):
    return "[" + "; ".join(xs) + "]"


def const(n):
    v = n.value
    if v is None:
        return "ENone"
    if v is True or v is False:
        return f"(EBool {'true' if v else 'false'})"
    if isinstance(v, int):
        return f"(EInt {z(v)})"
    if isinstance(v, float):
        # the decimal text of the literal, as an exact fraction
        import fractions
        src = repr(v)
        f = fractions.Fraction(src)
        assert float(f) == v
        return f"(EFlt {z(f.numerator)} {f.denominator})"
    if isinstance(v, str):
        return f"(EStr {s(v)})"
    bad(n)


class Tr:
    def __init__(self, data_name):
        self.data_name = data_name  # e.g. all_blm_skills

    def is_self(self, n, attr):
        return isinstance(n, ast.Attribute) and isinstance(n.value, ast.Name) and n.value.id == "self" and n.attr == attr

    def kws(self, n):
        out = []
        for k in n.keywords:
            if k.arg is None:
                bad(n, "**kwargs")
            out.append(f"({s(k.arg)}, {self.e(k.value)})")
        return lst(out)

    def e(self, n):
        e = self.e
        if isinstance(n, ast.Constant):
            return const(n)
        if isinstance(n, ast.Name):
            return f"(EVar {s(n.id)})"
        if isinstance(n, ast.Attribute):
            t = ast.unparse(n)
            if t in CONSTS:
                return f"(EConst {s(t)})"
            if isinstance(n.value, ast.Name) and n.value.id == "self":
                if n.attr in ("_version", "_level", "_skill_data"):
                    bad(n, "raw version/level/skill data")
                return f"(ESelf {s(n.attr)})"
            bad(n)
        if isinstance(n, ast.Tuple):
            return f"(ETup {lst([e(x) for x in n.elts])})"
        if isinstance(n, ast.List):
            return f"(EList {lst([e(x) for x in n.elts])})"
        if isinstance(n, ast.Dict):
            if any(k is None for k in n.keys):
                bad(n, "** in dict")
            return f"(EDict {lst([f'({e(k)}, {e(v)})' for k, v in zip(n.keys, n.values)])})"
        if isinstance(n, ast.BinOp):
            return f"(EBin {BIN[type(n.op)]} {e(n.left)} {e(n.right)})"
        if isinstance(n, ast.UnaryOp):
            if isinstance(n.op, ast.USub):
                return f"(ENeg {e(n.operand)})"
            if isinstance(n.op, ast.UAdd):
                return f"(EPos {e(n.operand)})"
            bad(n)
        if isinstance(n, ast.IfExp):
            return f"(EIf {e(n.test)} {e(n.body)} {e(n.orelse)})"
        if isinstance(n, ast.BoolOp):
            if not isinstance(n.op, ast.Or):
                bad(n)
            r = e(n.values[-1])
            for x in reversed(n.values[:-1]):
                r = f"(EOr {e(x)} {r})"
            return r
        if isinstance(n, ast.Compare):
            if len(n.ops) != 1:
                bad(n)
            op, l, r = CMP[type(n.ops[0])], n.left, n.comparators[0]
            if self.is_self(l, "_version"):
                return f"(EVer {op} {VERSIONS[r.value]})"
            if self.is_self(l, "_level"):
                assert isinstance(r.value, int) and op in ("OLt", "OGe"), ast.dump(n)
                return f"(ELev {op} K{r.value})"
            return f"(ECmp {op} {e(l)} {e(r)})"
        if isinstance(n, ast.JoinedStr):
            parts = []
            for p in n.values:
                if isinstance(p, ast.Constant):
                    parts.append(const(p))
                else:
                    if p.format_spec is not None or p.conversion != -1:
                        bad(n, "format spec")
                    parts.append(e(p.value))
            return f"(EFmt {lst(parts)})"
        if isinstance(n, ast.Subscript):
            return f"(EIdx {e(n.value)} {e(n.slice)})"
        if isinstance(n, ast.Call):
            f = n.func
            if isinstance(f, ast.Name):
                if f.id not in CTORS:
                    bad(n, "unknown function")
                return f"(ECall {s(f.id)} {lst([e(x) for x in n.args])} {self.kws(n)})"
            if isinstance(f, ast.Attribute):
                v = f.value
                if self.is_self(v, "_skill_data") or (isinstance(v, ast.Name) and v.id == self.data_name):
                    if f.attr == "get_skill_data":
                        assert len(n.args) == 2 and not n.keywords
                        return f"(EData {e(n.args[0])} {e(n.args[1])})"
                    fn = {"get_potency": "EPot", "get_potency_no_combo": "EPotNC",
                          "get_potency_no_positional": "EPotNP"}[f.attr]
                    assert len(n.args) + len(n.keywords) == 1
                    a = n.args[0] if n.args else n.keywords[0].value
                    if n.keywords:
                        assert n.keywords[0].arg == "skill_name"
                    return f"({fn} {e(a)})"
                if isinstance(v, ast.Name) and v.id == "self":
                    return f"(EMeth {s(f.attr)} {lst([e(x) for x in n.args])} {self.kws(n)})"
                if f.attr in ("keys", "items") and not n.args:
                    return f"({'EKeys' if f.attr == 'keys' else 'EItems'} {e(v)})"
            bad(n)
        bad(n)

    def target(self, t):
        """x[e1][e2].. -> (x, [e1; e2])"""
        path = []
        while isinstance(t, ast.Subscript):
            path.append(self.e(t.slice))
            t = t.value
        if not isinstance(t, ast.Name):
            bad(t)
        return t.id, list(reversed(path))

    def st(self, n, init=False):
        if isinstance(n, ast.Assign):
            assert len(n.targets) == 1
            t = n.targets[0]
            if isinstance(t, ast.Name):
                return f"SAsg {s(t.id)} {self.e(n.value)}"
            if isinstance(t, ast.Subscript):
                x, p = self.target(t)
                return f"SSet {s(x)} {lst(p)} {self.e(n.value)}"
            if isinstance(t, ast.Attribute) and isinstance(t.value, ast.Name) and t.value.id == "self":
                assert init
                return f"SAttr {s(t.attr)} {self.e(n.value)}"
            bad(n)
        if isinstance(n, ast.Return):
            return f"SRet {self.e(n.value) if n.value is not None else 'ENone'}"
        if isinstance(n, ast.If):
            return f"SIf {self.e(n.test)} {self.body(n.body)} {self.body(n.orelse)}"
        if isinstance(n, ast.For):
            assert not n.orelse
            t = n.target
            vs = [t.id] if isinstance(t, ast.Name) else [x.id for x in t.elts]
            return f"SFor {lst([s(v) for v in vs])} {'true' if isinstance(t, ast.Tuple) else 'false'} {self.e(n.iter)} {self.body(n.body)}"
        if isinstance(n, ast.Expr):
            c = n.value
            if isinstance(c, ast.Constant) and isinstance(c.value, str):
                return "SSkip"
            if isinstance(c, ast.Call) and isinstance(c.func, ast.Attribute) and c.func.attr == "append" \
                    and isinstance(c.func.value, ast.Name) and len(c.args) == 1 and not c.keywords:
                return f"SApp {s(c.func.value.id)} {self.e(c.args[0])}"
        if isinstance(n, ast.Pass):
            return "SSkip"
        bad(n)

    def body(self, ns, init=False):
        return lst([self.st(x, init) for x in ns])


def wrap(text, width=150):
    """break long lines at spaces outside string literals"""
    out, line, instr, last = [], "", False, -1
    for ch in text:
        line += ch
        if ch == '"':
            instr = not instr
        if ch == " " and not instr:
            last = len(line)
        if ch == "\n":
            out.append(line[:-1])
            line, last = "", -1
        elif len(line) > width and last > 0:
            out.append(line[:last].rstrip())
            line = "  " + line[last:]
            last = -1
    out.append(line)
    return "\n".join(out)


def emit_job(path):
    rel = path[len(REPO) + len("/ama_xiv_combat_sim/"):]
    dpath = path[:-3] + "_data.py"
    drel = rel[:-3] + "_data.py"
    job = os.path.basename(path)[:-3]
    tree, dtree = ast.parse(open(path).read()), ast.parse(open(dpath).read())
    data_name = f"all_{job}_skills"
    tr = Tr(data_name)
    out = []
    w = out.append
    w(f"(** * {job.upper()}: the shipped skill definitions.\n\n    Generated by tools/gen_game_data.py from\n    {rel} and {drel}. *)\n")
    w("From Coq Require Import ZArith List String.\nFrom Verif Require Import Py.\nImport ListNotations.\nOpen Scope string_scope.\nOpen Scope Z_scope.\n")
    # data table
    entries = []
    for n in dtree.body:
        if isinstance(n, ast.ImportFrom):
            continue
        if isinstance(n, ast.Assign) and ast.unparse(n.targets[0]) == data_name:
            assert ast.unparse(n.value) == "SpecificSkills()"
            continue
        if isinstance(n, ast.Assign) and ast.unparse(n.targets[0]) == "ALL_DATA":
            for k, v in zip(n.value.keys, n.value.values):
                levels = []
                for l, pv in zip(v.keys, v.values):
                    params = []
                    for p, vv in zip(pv.keys, pv.values):
                        vers = [f"({VERSIONS[a.value]}, {tr.e(b)})" for a, b in zip(vv.keys, vv.values)]
                        params.append(f"({s(p.value)}, {lst(vers)})")
                    assert len({p.value for p in pv.keys}) == len(pv.keys) or print("dup param", dpath, k.value)
                    levels.append(f"({l.value}, {lst(params)})")
                entries.append((k, f"({s(k.value)}, {lst(levels)})", v.end_lineno))
            names = [k.value for k, _, _ in entries]
            if len(set(names)) != len(names):
                print("duplicate table keys", dpath, [x for x in names if names.count(x) > 1])
            continue
        if isinstance(n, ast.For):
            assert ast.unparse(n) == f"for k, v in ALL_DATA.items():\n    {data_name}.add_skill_data(k, v)"
            continue
        bad(n)
    w(f"(** {drel} lines {entries[0][0].lineno}-{entries[-1][2]}, in dict-literal order *)")
    w(wrap(f"Definition {job}_data : data_table := [\n  " + ";\n  ".join(t for _, t, _ in entries) + "].\n"))
    # class
    cls = [n for n in tree.body if isinstance(n, ast.ClassDef)]
    for n in tree.body:
        if not isinstance(n, (ast.Import, ast.ImportFrom, ast.ClassDef)):
            bad(n, "top level")
    assert len(cls) == 1 and [ast.unparse(b) for b in cls[0].bases] == ["GenericJobClass"]
    cls = cls[0]
    attrs, init, methods, skills, resources = [], None, {}, [], []
    for n in cls.body:
        if isinstance(n, ast.Assign):
            attrs.append(f"({s(n.targets[0].id)}, {tr.e(n.value)})")
        elif isinstance(n, ast.Expr) and isinstance(n.value, ast.Constant):
            pass
        elif isinstance(n, ast.FunctionDef):
            a = n.args
            assert not (a.vararg or a.kwarg or a.kwonlyargs or a.posonlyargs)
            assert a.args[0].arg == "self"
            if n.name == "__init__":
                assert [x.arg for x in a.args] == ["self", "version", "level"] and not a.defaults
                sup = ast.unparse(n.body[0])
                assert sup == f"super().__init__(version=version, level=level, skill_data={data_name})", sup
                init = n
                continue
            names = [x.arg for x in a.args[1:]]
            defs = [None] * (len(names) - len(a.defaults)) + list(a.defaults)
            ps = lst([f"({s(x)}, {'None' if d is None else 'Some ' + tr.e(d)})" for x, d in zip(names, defs)])
            decos = [ast.unparse(d) for d in n.decorator_list]
            # dir() and getattr see the mangled name of a private method
            pub = n.name if not (n.name.startswith("__") and not n.name.endswith("__")) else f"_{cls.name}{n.name}"
            if n.name in methods:
                print("redefined method", path, n.name)
                skills = [x for x in skills if x[1] != n.name]
                resources = [x for x in resources if x[1] != n.name]
            methods[n.name] = (n, ps, tr.body(n.body))
            for d in decos:
                if d == "GenericJobClass.is_a_skill":
                    skills.append((pub, n.name))
                elif d == "GenericJobClass.is_a_resource":
                    resources.append((pub, n.name))
                else:
                    bad(n, "decorator")
        else:
            bad(n, "class body")
    for i, (name, (n, ps, body)) in enumerate(methods.items()):
        w(f"(** {rel} lines {n.lineno}-{n.end_lineno}: {name} *)")
        w(wrap(f"Definition {job}_m{i} : pmethod := mkMethod {s(name)} {ps}\n  {body}.\n"))
    w(f"(** {rel} lines {init.lineno}-{init.end_lineno}: __init__ after super().__init__ *)")
    w(wrap(f"Definition {job}_init : list stmt :=\n  {tr.body(init.body[1:], init=True)}.\n"))
    w(f"(** {rel} lines {cls.lineno}-{cls.end_lineno}: class {cls.name}; the decorated methods in the order of [dir] *)")
    w(wrap(f"Definition {job}_class : pclass := mkClass {lst(attrs)} {job}_init\n  {lst([f'{job}_m{i}' for i in range(len(methods))])}\n"
           f"  {lst([s(x[1]) for x in sorted(skills)])}\n  {lst([s(x[1]) for x in sorted(resources)])}\n  {job}_data."))
    return job, "\n".join(out) + "\n"


def main():
    for path in sorted(glob.glob(BASE + "*/*.py")):
        if path.endswith("_data.py") or path.endswith("__init__.py"):
            continue
        try:
            job, text = emit_job(path)
        except Unsupported as ex:
            print("UNSUPPORTED", path, ex)
            continue
        open(f"{OUT}/Data_{job.upper()}.v", "w").write(text)


if __name__ == "__main__":
    main()
