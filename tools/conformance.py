#!/usr/bin/env python3
"""Replay the project's own tests in the Rocq model.

The test files are parsed with `ast` and followed symbolically: literals are kept,
calls of the project become calls of the model's definitions, comparisons become
boolean checks.  Nothing of the project is run.  One Coq file per test file is
written to the output directory (outside the repository); compiling it prints the
number of tests, the number of comparisons and those tests whose outcome differs from what the project expects.

usage: conformance.py REPO OUTPUT_DIR
then, in OUTPUT_DIR:
  coqc -Q /verif/rocq/theories Verif -Q . Conf Support.v
  for f in T_*.v; do coqc -Q /verif/rocq/theories Verif -Q . Conf $f; done
"""
import ast
import math
import os
import re
import sys
from fractions import Fraction as F

sys.path.insert(0, os.path.dirname(os.path.abspath(__file__)))
import gen_game_data as G  # noqa: E402

REPO = sys.argv[1] if len(sys.argv) > 1 else "/repo"
OUT = sys.argv[2] if len(sys.argv) > 2 else "/tmp/conformance"
SIM = REPO + "/ama_xiv_combat_sim/simulator/"


class Stop(Exception):
    pass


class Sym:
    def __init__(self, coq, kind):
        self.coq, self.kind = coq, kind


class Obj:
    """A mutable object: `coq` is its current state."""
    def __init__(self, cls, coq, **kw):
        self.cls, self.coq = cls, coq
        self.__dict__.update(kw)


class Py:
    """A constructor call as a term of Py.v."""
    def __init__(self, coq, cls):
        self.coq, self.cls, self.bound = coq, cls, None


class Const:
    def __init__(self, name):
        self.name = name


class Sliced:
    def __init__(self, coq):
        self.coq = coq


def consts_of(path, cls):
    r = {}
    for c in ast.parse(open(path).read()).body:
        if isinstance(c, ast.ClassDef) and c.name == cls:
            for s in c.body:
                t = s.targets[0] if isinstance(s, ast.Assign) else getattr(s, "target", None)
                if isinstance(t, ast.Name) and getattr(s, "value", None) is not None:
                    try:
                        r[f"{cls}.{t.id}"] = eval(compile(ast.Expression(s.value), "c", "eval"), {}, {})
                    except Exception:
                        pass
    return r


CONSTS = consts_of(SIM + "sim_consts.py", "SimConsts")
CONSTS.update(consts_of(SIM + "game_data/game_consts.py", "GameConsts"))
ENUMS = {"ForcedCritOrDH.FORCE_YES": "F_YES", "ForcedCritOrDH.FORCE_NO": "F_NO", "ForcedCritOrDH.DEFAULT": "F_DEFAULT"}
for d in ("DIRECT", "AUTO", "PET", "PHYSICAL_DOT", "MAGICAL_DOT"):
    ENUMS["DamageClass." + d] = "DC_" + d

st = G.s


def num(x):
    return isinstance(x, (int, float)) and not isinstance(x, bool)


def qi(x):
    """A number given to the project: the double nearest to the literal."""
    if isinstance(x, Sym) and x.kind == "Q":
        return x.coq
    if isinstance(x, Sym) and x.kind == "Z":
        return f"(q {x.coq})"
    if not num(x):
        raise Stop(f"number {x}")
    f = F(x)
    return f"(({f.numerator}) # {f.denominator})%Q"


def zi(x):
    if isinstance(x, Sym) and x.kind == "Z":
        return x.coq
    if isinstance(x, bool) or not isinstance(x, int):
        raise Stop(f"integer {x}")
    return f"({x})"


def si(x):
    if isinstance(x, Sym) and x.kind == "str":
        return x.coq
    if not isinstance(x, str):
        raise Stop(f"string {x}")
    return st(x)


def opt(f, x):
    return "None" if x is None else f"(Some {f(x)})"


def bi(x):
    if x is True or x is False:
        return "true" if x else "false"
    raise Stop(f"bool {x}")


def lst(xs):
    return "[" + "; ".join(xs) + "]"


class Test:
    def __init__(self, name, cls, methods):
        self.name, self.cls, self.methods = name, cls, methods
        self.lines, self.n, self.checks, self.selfenv = [], 0, [], {}
        self.classenv = {}

    def fresh(self, p="x"):
        self.n += 1
        return f"{p}{self.n}"

    def bind(self, term, p="x"):
        v = self.fresh(p)
        self.lines.append(f"let* {v} := {term} in")
        return v

    def let(self, term, p="x"):
        v = self.fresh(p)
        self.lines.append(f"let {v} := {term} in")
        return v

    def check(self, label, term):
        v = self.let(term, "c")
        self.checks.append(f"({st(label)}, {v})")

    # conversions
    def skill(self, v):
        if isinstance(v, Sym) and v.kind == "skill":
            return v.coq
        if isinstance(v, Py) and v.cls == "Skill":
            if v.bound is None:
                v.bound = self.bind(f"to_skill (py_eval {v.coq})", "s")
            return v.bound
        raise Stop(f"skill {v}")

    def mod(self, v):
        if isinstance(v, Sym) and v.kind == "mod":
            return v.coq
        raise Stop(f"modifier {v}")

    def eff(self, v):
        if isinstance(v, Sym) and v.kind == "eff":
            return v.coq
        raise Stop(f"effects {v}")

    def eff2(self, v):
        return f"({self.eff(v[0])}, {self.eff(v[1])})"

    def obs(self, v):
        if v is None:
            return "ONone"
        if v is True or v is False:
            return f"(OBool {bi(v)})"
        if isinstance(v, int):
            return f"(OZ ({v}))"
        if isinstance(v, float):
            return "OInf" if v == math.inf else f"(OQ {qi(v)})"
        if isinstance(v, str):
            return f"(OStr {st(v)})"
        if isinstance(v, (tuple, list)):
            return f"(OTup {lst([self.obs(x) for x in v])})"
        if isinstance(v, dict) and "set" in v:
            return f"(OSet {lst([self.obs(x) for x in v['set']])})"
        if isinstance(v, Sliced):
            return v.coq
        if isinstance(v, Py) and v.cls == "Skill":
            return f"(OSkill {self.skill(v)})"
        if isinstance(v, Sym):
            w = {"skill": "OSkill", "mod": "OMod", "eff": "OEff", "Z": "OZ", "Q": "OQ", "str": "OStr", "bool": "OBool",
                 "cond": "OCond", "ext": "o_ext", "optZ": "o_opt", "windows": "o_windows"}
            if v.kind == "Qs":
                return f"(OTup (map OQ {v.coq}))"
            if v.kind in w:
                return f"({w[v.kind]} {v.coq})"
        raise Stop(f"obs {getattr(v, 'kind', v)}")

    def py(self, v):
        if isinstance(v, Py):
            return v.coq
        if isinstance(v, Const):
            return f"(EConst {st(v.name)})"
        if v is None:
            return "ENone"
        if v is True or v is False:
            return f"(EBool {bi(v)})"
        if isinstance(v, int):
            return f"(EInt {G.z(v)})"
        if isinstance(v, float):
            if v == math.inf:
                return '(EConst "math.inf")'
            f = F(repr(v))
            return f"(EFlt {G.z(f.numerator)} {f.denominator})"
        if isinstance(v, str):
            return f"(EStr {st(v)})"
        if isinstance(v, tuple):
            return f"(ETup {lst([self.py(x) for x in v])})"
        if isinstance(v, list):
            return f"(EList {lst([self.py(x) for x in v])})"
        if isinstance(v, dict) and "set" not in v:
            return f"(EDict {lst([f'({self.py(k)}, {self.py(x)})' for k, x in v.items()])})"
        raise Stop(f"py {v}")

    # evaluation
    def ev(self, e, env):
        ev = lambda x: self.ev(x, env)
        if isinstance(e, ast.Constant):
            return e.value
        if isinstance(e, ast.Tuple):
            return tuple(ev(x) for x in e.elts)
        if isinstance(e, ast.List):
            return [ev(x) for x in e.elts]
        if isinstance(e, ast.Set):
            return {"set": [ev(x) for x in e.elts]}
        if isinstance(e, ast.Dict):
            return {ev(k): ev(v) for k, v in zip(e.keys, e.values)}
        if isinstance(e, ast.JoinedStr):
            return ""
        if isinstance(e, ast.Name):
            if e.id in env:
                return env[e.id]
            raise Stop("name " + e.id)
        if isinstance(e, ast.Attribute):
            return self.attr(e, env)
        if isinstance(e, ast.UnaryOp) and isinstance(e.op, ast.USub):
            return -ev(e.operand)
        if isinstance(e, ast.BoolOp):
            vs = [ev(x) for x in e.values]
            return vs[-1]
        if isinstance(e, ast.BinOp):
            return self.arith(e.op, ev(e.left), ev(e.right))
        if isinstance(e, ast.Subscript):
            if isinstance(e.slice, ast.Slice):
                v = ev(e.value)
                if isinstance(v, (tuple, list, str)):
                    lo = ev(e.slice.lower) if e.slice.lower else None
                    hi = ev(e.slice.upper) if e.slice.upper else None
                    return v[lo:hi]
                raise Stop("slice")
            return ev(e.value)[ev(e.slice)]
        if isinstance(e, (ast.ListComp, ast.GeneratorExp)):
            return self.comp(e, env)
        if isinstance(e, ast.Call):
            return self.call(e, env)
        raise Stop(ast.dump(e)[:80])

    def arith(self, op, a, b):
        if isinstance(a, Sym) or isinstance(b, Sym):
            o = {ast.Add: "+", ast.Sub: "-", ast.Mult: "*", ast.Div: "/"}[type(op)]
            return Sym(f"({qi(a)} {o} {qi(b)})%Q", "Q")
        f = {ast.Add: lambda: a + b, ast.Sub: lambda: a - b, ast.Mult: lambda: a * b, ast.Div: lambda: a / b,
             ast.Pow: lambda: a ** b}[type(op)]
        return f()

    def comp(self, e, env):
        if len(e.generators) != 1 or e.generators[0].ifs:
            raise Stop("comprehension")
        g = e.generators[0]
        it = ast.unparse(g.iter)
        body = ast.unparse(e.elt)
        # [r[i][a:b] for i in range(0, len(r))] and [x[a:b] for x in r]
        m = re.fullmatch(r"range\((?:0, )?len\((\w+)\)\)", it)
        if m and m.group(1) in env and isinstance(env[m.group(1)], Sym):
            src, pre = env[m.group(1)], re.escape(f"{m.group(1)}[{g.target.id}]")
        elif not m:
            src = self.ev(g.iter, env)
            pre = re.escape(g.target.id) if isinstance(g.target, ast.Name) else ""
        else:
            src, pre = None, ""
        if isinstance(src, Sym):
            k = re.fullmatch(pre + r"\[(-?\d+):(-?\d+)\]", body)
            if k and src.kind == "events" and int(k.group(1)) >= 0 and int(k.group(2)) >= 0:
                return Sliced(f"(OTup (map (o_event {k.group(1)}%nat {k.group(2)}%nat) {src.coq}))")
            if k and src.kind == "instances" and k.groups() == ("0", "-2"):
                return Sliced(f"(OTup (map o_instance {src.coq}))")
            if src.kind == "rows" and re.fullmatch(pre + r"\.expected_damage", body):
                return Sym(f"(fst {src.coq})", "Qs")
            if src.kind == "rows" and re.fullmatch(pre + r"\.standard_deviation", body):
                return Sym(f"(snd {src.coq})", "vars")
            raise Stop("comprehension " + body)
        if src is None:
            src = self.ev(g.iter, env)
        r = []
        for x in src:
            self.assign(g.target, x, env)
            r.append(self.ev(e.elt, env))
        return r

    def attr(self, e, env):
        t = ast.unparse(e)
        if t in ENUMS:
            return Const(t)
        if t in CONSTS:
            return CONSTS[t]
        if t in ("math.inf", "np.inf"):
            return math.inf
        if isinstance(e.value, ast.Name) and e.value.id == "self":
            if e.attr in self.selfenv:
                return self.selfenv[e.attr]
            if e.attr in self.classenv:
                return self.classenv[e.attr]
            raise Stop("self." + e.attr)
        if e.attr in ("crit_rate", "dh_rate", "crit_bonus", "det_bonus") and isinstance(e.value, ast.Attribute) \
                and e.value.attr == "processed_stats":
            o = self.ev(e.value.value, env)
            return Sym(f"(ps_{e.attr} {o.coq})", "Q")
        o = self.ev(e.value, env)
        if isinstance(o, Obj) and o.cls == "Stats" and e.attr in o.kw:
            return o.kw[e.attr]
        if e.attr in ("has_buff", "has_debuff", "has_party_buff", "has_party_debuff"):
            return Sym(f"({e.attr} {self.skill(o)})", "bool")
        if isinstance(o, Sym) and o.kind == "mod" and e.attr == "with_condition":
            return Sym(f"(sm_cond {o.coq})", "cond")
        if isinstance(o, Py) and o.cls == "TimingSpec" and e.attr == "gcd_base_recast_time":
            v = self.bind(f"(let* v := py_eval {o.coq} in as_timing v)")
            return Sym(f"(gcd_base_recast {v})", "Z")
        if isinstance(o, Py) and o.cls == "StatusEffectSpec" and e.attr == "max_duration":
            v = self.bind(f"(let* v := py_eval {o.coq} in as_status v)")
            return Sym(f"(max_duration {v})", "ext")
        raise Stop("attribute " + t)

    def args(self, e, env, names, defaults):
        r = dict(defaults)
        if len(e.args) > len(names):
            raise Stop("arguments " + ast.unparse(e.func))
        for n, a in zip(names, e.args):
            r[n] = self.ev(a, env)
        for k in e.keywords:
            if k.arg not in names:
                raise Stop(f"keyword {k.arg}")
            r[k.arg] = self.ev(k.value, env)
        for n in names:
            if n not in r:
                raise Stop(f"missing {n}")
        return r

    def call(self, e, env):
        f = ast.unparse(e.func)
        ev = lambda x: self.ev(x, env)
        A = lambda names, **d: self.args(e, env, names.split(), d)
        if f in G.CTORS - {"tuple", "int", "max", "min", "range"}:
            pos = [self.py(ev(a)) for a in e.args]
            kws = [f"({st(k.arg)}, {self.py(ev(k.value))})" for k in e.keywords]
            return Py(f"(ECall {st(f)} {lst(pos)} {lst(kws)})", f)
        if f == "SkillModifier":
            a = A("with_condition guaranteed_crit guaranteed_dh force_combo ignore_cast_times ignore_application_delay bonus_percent",
                  with_condition="", guaranteed_crit=Const("ForcedCritOrDH.DEFAULT"), guaranteed_dh=Const("ForcedCritOrDH.DEFAULT"),
                  force_combo=False, ignore_cast_times=False, ignore_application_delay=False, bonus_percent=None)
            return Sym(f"(mkModifier {ENUMS[a['guaranteed_crit'].name]} {ENUMS[a['guaranteed_dh'].name]} (canonicalize {si(a['with_condition'])}) "
                       f"{bi(a['force_combo'])} {bi(a['ignore_cast_times'])} {bi(a['ignore_application_delay'])} {opt(qi, a['bonus_percent'])})", "mod")
        if f == "StatusEffects":
            D = Const("ForcedCritOrDH.DEFAULT")
            a = A("crit_rate_add dh_rate_add damage_mult auto_attack_delay_mult main_stat_add main_stat_mult haste_time_mult "
                  "flat_cast_time_reduction flat_gcd_recast_time_reduction guaranteed_crit guaranteed_dh status_effects",
                  crit_rate_add=0, dh_rate_add=0, damage_mult=1, auto_attack_delay_mult=1, main_stat_add=0, main_stat_mult=1,
                  haste_time_mult=1, flat_cast_time_reduction=0, flat_gcd_recast_time_reduction=0, guaranteed_crit=D, guaranteed_dh=D,
                  status_effects=())
            fc = a["flat_cast_time_reduction"]
            fc = "Inf" if fc == math.inf else f"(Fin {zi(fc)})"
            return Sym(f"(mkEffects {qi(a['crit_rate_add'])} {qi(a['dh_rate_add'])} {qi(a['damage_mult'])} {qi(a['main_stat_add'])} "
                       f"{qi(a['main_stat_mult'])} {qi(a['auto_attack_delay_mult'])} {qi(a['haste_time_mult'])} {fc} "
                       f"{zi(a['flat_gcd_recast_time_reduction'])} {ENUMS[a['guaranteed_crit'].name]} {ENUMS[a['guaranteed_dh'].name]} "
                       f"{lst([si(x) for x in a['status_effects']])})", "eff")
        if f == "Stats":
            k = A("wd weapon_delay main_stat det_stat dh_stat crit_stat speed_stat job_class version tenacity num_roles_in_party healer_or_caster_strength level",
                  weapon_delay=None, tenacity=None, num_roles_in_party=5, healer_or_caster_strength=None, level=90)
            v = self.bind(f"make_stats {qi(k['wd'])} {opt(qi, k['weapon_delay'])} {qi(k['main_stat'])} {qi(k['det_stat'])} {qi(k['dh_stat'])} "
                          f"{qi(k['crit_stat'])} {qi(k['speed_stat'])} {si(k['job_class'])} {si(k['version'])} {opt(qi, k['tenacity'])} "
                          f"{qi(k['num_roles_in_party'])} {opt(qi, k['healer_or_caster_strength'])} {zi(k['level'])}", "st")
            return Obj("Stats", v, kw=k)
        if f == "create_test_skill_library":
            return Obj("Lib", "lib")
        if f == "create_skill_library":
            return Obj("Lib", "lib")
        if f == "JobClassTesterUtil":
            return Obj("Tester", ev(e.args[0]).coq)
        if f == "RotationBuilder":
            a = A("stats skill_library snap_dots_to_server_tick_starting_at enable_autos ignore_trailing_dots fight_start_time downtime_windows default_target",
                  snap_dots_to_server_tick_starting_at=None, enable_autos=False, ignore_trailing_dots=False, fight_start_time=None,
                  downtime_windows=(), default_target="Default Target")
            w = lambda l: lst([f"({qi(x[0])}, {qi(x[1])}, {'Some ' + ENUMS[x[2].name] if len(x) > 2 else 'None'})" for x in l])
            d = a["downtime_windows"]
            d = f"(RWDict {lst([f'({st(k)}, {w(v)})' for k, v in d.items()])})" if isinstance(d, dict) else f"(RWTuple {w(d)})"
            v = self.bind(f"rb_init {a['stats'].coq} {a['skill_library'].coq} {opt(qi, a['snap_dots_to_server_tick_starting_at'])} {bi(a['enable_autos'])} "
                          f"{bi(a['ignore_trailing_dots'])} {opt(zi, a['fight_start_time'])} {d} {si(a['default_target'])}", "rb")
            return Obj("RB", v, stats=a["stats"], lib=a["skill_library"])
        if f == "DamageBuilder":
            a = A("stats skill_library")
            return Obj("DB", self.bind(f"db_init {a['stats'].coq} {a['skill_library'].coq}", "db"))
        if f == "SnapshotAndApplicationEvents":
            return Obj("Q", "q_init")
        if f == "SnapshotAndApplicationEvents.EventTimes":
            return (ev(e.args[0]), ev(e.args[1]))
        if f == "DamageSimulator":
            a = A("stats dmg_instances num_samples verbose save_damage_matrix", verbose=False, save_damage_matrix=False)
            d = a["dmg_instances"]
            if isinstance(d, Sym) and d.kind == "instances":
                d = d.coq
            else:
                d = lst([f"mkInst {zi(x[0])} {self.skill(x[1])} {self.mod(x[2])} {self.eff2(x[3])} {zi(x[4])} {si(x[5])}" for x in d])
            return Obj("Sim", self.bind(f"ds_init {a['stats'].coq} {d}", "sim"))
        if f == "StatusEffectTracker":
            a = A("status_effects_priority", status_effects_priority=())
            return Obj("SE", f"(se_init {lst([si(x) for x in a['status_effects_priority']])})")
        if f == "ChannelingTracker":
            return Obj("CH", "ch_init")
        if f == "ComboTracker":
            a = A("combo_breakers", combo_breakers=None)
            d = a["combo_breakers"] or {}
            return Obj("CT", f"(combo_init {lst([f'({zi(k)}, {lst([zi(x) for x in v])})' for k, v in d.items()])})")
        if f == "JobResourceTracker":
            d = ev(e.args[0])
            if isinstance(d, Sym) and d.kind == "settings":
                return Obj("JR", f"(jr_init {d.coq})")
            l = []
            for k, v in d.items():
                l.append(f"({si(k)}, {self.bind(f'to_jrs (py_eval {v.coq})')})")
            return Obj("JR", f"(jr_init {lst(l)})")
        if f == "range":
            return list(range(*[ev(a) for a in e.args]))
        if f == "enumerate":
            return list(enumerate(ev(e.args[0])))
        if f == "zip":
            return list(zip(*[ev(a) for a in e.args]))
        if f == "len":
            return len(ev(e.args[0]))
        if f in ("frozenset", "set"):
            v = ev(e.args[0]) if e.args else []
            if all(isinstance(x, str) for x in v):
                return Sym(lst([st(x) for x in dict.fromkeys(v)]), "cond")
            return {"set": list(v)}
        if f in ("tuple", "list"):
            if not e.args:
                return ()
            v = ev(e.args[0])
            return v if isinstance(v, (Sym, Sliced)) else (tuple(v) if f == "tuple" else list(v))
        if f == "float":
            v = ev(e.args[0])
            return v if isinstance(v, Sym) else float(v)
        if f in ("abs", "np.abs"):
            v = ev(e.args[0])
            return Sym(f"(Qabs {qi(v)})", "Q") if isinstance(v, Sym) else abs(v)
        if f == "math.pow":
            return math.pow(ev(e.args[0]), ev(e.args[1]))
        if f in ("print", "str", "super().__init__"):
            return ""
        if f == "ComputeDamageUtils.get_base_damage":
            a = A("skill skill_modifier stats status_effects")
            v = self.bind(f"get_base_damage {self.skill(a['skill'])} {self.mod(a['skill_modifier'])} {a['stats'].coq} {self.eff2(a['status_effects'])}")
            return Sym(self.bind(f"of_option TypeError {v}"), "Q")
        if f.startswith("StatFns."):
            return self.stat_fn(f[8:], A)
        if f == "Utils.transform_time_to_prio":
            return Sym(f"(time_to_prio {zi(ev(e.args[0]))})", "Z")
        if f == "Utils.canonicalize_condition":
            return Sym(f"(canonicalize {si(ev(e.args[0]))})", "cond")
        if f == "Utils.get_positional_condition":
            a = A("skill skill_modifier")
            return Sym(self.bind(f"get_positional_condition {self.skill(a['skill'])} {self.mod(a['skill_modifier'])}"), "str")
        if f == "Utils.get_best_key":
            ks, c = ev(e.args[0]), ev(e.args[1])
            return Sym(self.bind(f"get_best_key {lst([k.coq for k in ks])} {c.coq}"), "cond")
        if f == "Utils.get_greatest_dict_key_val_less_than_query":
            d, s = ev(e.args[0]), ev(e.args[1])
            return Sym(f"(get_greatest_dict_val {lst([f'({st(k)}, {zi(v)})' for k, v in d.items()])} {si(s)})", "optZ")
        if f == "self._compare_sequential":
            a = A("result expected relative_tol", relative_tol=None)
            self.compare(a["result"], a["expected"], a["relative_tol"])
            return (True, "")
        if f == "self._compare_sets":
            a = A("result expected")
            self.check("sets", f"obs_eqb {self.obs(a['result'])} {self.obs(a['expected'])}")
            return (True, "")
        if f.endswith("__extract_rb_q_info"):
            v = ev(e.args[0])
            return Sliced(f"(OSet (map o_event_info {v.coq}))")
        if isinstance(e.func, ast.Attribute):
            m = e.func.attr
            if isinstance(e.func.value, ast.Constant) or m in ("format", "join"):
                return ""
            if isinstance(e.func.value, ast.Name) and e.func.value.id == "self" and m in self.methods:
                return self.run(self.methods[m].body, {})
            o = ev(e.func.value)
            if isinstance(o, dict) and m == "items":
                return list(o.items())
            if isinstance(o, list) and m == "append":
                o.append(ev(e.args[0]))
                return None
            if isinstance(o, Obj):
                return self.meth(o, m, e, env, A)
            if isinstance(o, Sym) and o.kind == "queue" and m == "get_q":
                return Sym(f"(get_q {o.coq})", "events")
        raise Stop("call " + f)

    def stat_fn(self, m, A):
        N = {"get_time_using_speed_stat": "t_ms speed_stat", "get_crit_stats": "crit_stat", "get_dh_rate": "dh_stat", "fWD": "wd job_mod",
             "fSpd": "speed_stat", "fTnc": "tenacity", "fAP": "main_stat is_tank", "fDet": "det_stat", "fDetDH": "det_stat dh_stat",
             "fAuto": "wd weapon_delay job_mod"}[m]
        a = A(N + " version level", level=90)
        c = self.bind(f"get_consts {si(a['version'])} {zi(a['level'])}")
        v = [a[k] for k in N.split()]
        if m == "get_time_using_speed_stat":
            return Sym(f"(time_using_speed_stat {c} {zi(v[0])} {qi(v[1])})", "Z")
        if m == "get_crit_stats":
            return (Sym(f"(crit_rate_of {c} {qi(v[0])})", "Q"), Sym(f"(crit_bonus_of {c} {qi(v[0])})", "Q"))
        if m == "get_dh_rate":
            return Sym(f"(dh_rate_of {c} {qi(v[0])})", "Q")
        if m == "fAP":
            return Sym(f"(fAP {c} {qi(v[0])} {bi(v[1])})", "Q")
        return Sym(f"({m} {c} {' '.join(qi(x) for x in v)})", "Q")

    def compare(self, got, want, tol):
        if isinstance(got, (list, tuple)) and all(isinstance(x, (Sym, int, float)) for x in got) and tol is not None:
            got = Sym(lst([qi(x) for x in got]), "Qs")
        if isinstance(got, Sym) and got.kind == "vars":
            # sqrt(v) within tol of w: compare v with the squares
            if tol is None:
                raise Stop("std")
            self.check("std", "(fix go l l' := match l, l' with [], [] => true | v :: l, w :: l' => "
                       f"qltb ((w - {qi(tol)} * w) * (w - {qi(tol)} * w))%Q v && qltb v ((w + {qi(tol)} * w) * (w + {qi(tol)} * w))%Q && go l l' "
                       f"| _, _ => false end) {got.coq} {lst([qi(x) for x in want])}")
        elif tol is not None:
            self.check("close", f"rel_closes {qi(tol)} {got.coq} {lst([qi(x) for x in want])}")
        else:
            self.check("sequential", f"obs_eqb {self.obs(got)} {self.obs(want)}")

    def meth(self, o, m, e, env, A):
        ev = lambda x: self.ev(x, env)
        if o.cls == "Lib":
            if m == "get_skill":
                a = A("skill_name job_class")
                return Sym(self.bind(f"get_skill {o.coq} {si(a['skill_name'])} {si(a['job_class'])}", "s"), "skill")
            if m == "get_all_resource_settings":
                return Sym(self.bind(f"get_all_resource_settings {o.coq} {si(ev(e.args[0]))}"), "settings")
        if o.cls == "RB":
            if m == "add":
                a = A("t skill_name skill_modifier job_class targets", skill_modifier=None, job_class=None, targets=None)
                o.coq = self.bind(f"add {o.coq} {qi(a['t'])} {si(a['skill_name'])} {opt(self.mod, a['skill_modifier'])} {opt(si, a['job_class'])} {opt(si, a['targets'])}", "rb")
                return None
            if m == "add_next":
                a = A("skill_name skill_modifier job_class num_times targets", skill_modifier=None, job_class=None, num_times=1, targets=None)
                o.coq = self.bind(f"add_next {o.coq} {si(a['skill_name'])} {opt(self.mod, a['skill_modifier'])} {opt(si, a['job_class'])} {zi(a['num_times'])} {opt(si, a['targets'])}", "rb")
                return None
            if m == "get_skill_timing":
                o.coq = self.bind(f"get_skill_timing {o.coq}", "rb")
                return Sym(f"(b_queue {o.coq})", "queue")
            if m == "get_stats":
                return o.stats
        if o.cls == "Q":
            if m == "add":
                a = A("priority primary_time secondary_time skill skill_modifier snapshot_status event_id job_resources_added job_conditional_processed "
                      "combo_conditional_processed targets", event_id=None, job_resources_added=False, job_conditional_processed=False,
                      combo_conditional_processed=False, targets=("Default Target",))
                if a["event_id"] is not None:
                    raise Stop("event id")
                sn = a["snapshot_status"]
                o.coq = self.bind(f"q_add {o.coq} {zi(a['priority']) if not isinstance(a['priority'], Sym) else self.prio(a['priority'])} {zi(a['primary_time'])} {opt(zi, a['secondary_time'])} {self.skill(a['skill'])} {self.mod(a['skill_modifier'])} "
                                  f"(SFlag {bi(sn[0])}, SFlag {bi(sn[1])}) None {bi(a['job_resources_added'])} {bi(a['job_conditional_processed'])} "
                                  f"{bi(a['combo_conditional_processed'])} {lst([si(x) for x in a['targets']])}", "qu")
                return None
            if m == "get_last_event_time":
                return Sym(f"(get_last_event_time {o.coq})", "optZ")
            if m == "get_q":
                return Sym(f"(get_q {o.coq})", "events")
        if o.cls == "DB" and m == "get_damage_instances":
            v = ev(e.args[0])
            r = self.fresh("di")
            tk = self.fresh("tk")
            self.lines.append(f"let* ({tk}, _, {r}) := get_damage_instances {o.coq} {v.coq} in")
            o.coq = tk
            return Sym(r, "instances")
        if o.cls == "Sim":
            if m == "get_trait_damage_mult":
                return Sym(f"(map r_trait (dt_rows (ds_tracker {o.coq})))", "Qs")
            if m == "get_crit_and_dh_rates":
                return (Sym(f"(map r_crit_rate (dt_rows (ds_tracker {o.coq})))", "Qs"), Sym(f"(map r_dh_rate (dt_rows (ds_tracker {o.coq})))", "Qs"))
            r = self.bind(f"expected_and_variance {o.coq} half")
            return {"get_expected_damage_per_damage_instance": Sym(f"(fst {r})", "Qs"),
                    "get_variance_per_damage_instance": Sym(f"(snd {r})", "Qs"),
                    "get_expected_damage": Sym(f"(qsum (fst {r}))", "Q"),
                    "get_damage_variance": Sym(f"(qsum (snd {r}))", "Q"),
                    "get_per_skill_damage": Sym(r, "rows")}[m]
        if o.cls == "SE":
            if m == "add_to_status_effects":
                a = A("start_time skill skill_modifier targets", targets=("Default Target",))
                o.coq = self.bind(f"add_to_status_effects {o.coq} {zi(a['start_time'])} {self.skill(a['skill'])} {self.mod(a['skill_modifier'])} {lst([si(x) for x in a['targets']])}", "se")
                return None
            if m == "expire_status_effects":
                a = A("t")
                o.coq = self.let(f"expire_status_effects {zi(a['t'])} {o.coq}", "se")
                return None
            if m in ("compile_buffs", "compile_debuffs"):
                a = A("t skill target", skill=Py('(ECall "Skill" [] [("name", EStr "")])', "Skill"), target="Default Target")
                x, y = self.fresh("se"), self.fresh("r")
                tg = "" if m == "compile_buffs" else si(a["target"])
                sk = self.skill(a["skill"])
                self.lines.append(f"let* ({x}, {y}) := {m} {o.coq} {zi(a['t'])} {sk} {tg} in")
                o.coq = x
                return (Sym(f"(fst {y})", "eff"), Sym(f"(snd {y})", "str"))
        if o.cls == "CH":
            if m == "process_channeling":
                a = A("t skill skill_modifier")
                o.coq = self.bind(f"process_channeling {o.coq} {zi(a['t'])} {self.skill(a['skill'])} {self.mod(a['skill_modifier'])}", "ch")
                return None
            if m == "finalize":
                o.coq = self.bind(f"ch_finalize {o.coq}", "ch")
                return None
            if m == "get_channeling_windows":
                return Sym(self.bind(f"get_channeling_windows {o.coq}"), "windows")
        if o.cls == "CT" and m == "compile_and_update_combo":
            a = A("curr_t skill skill_modifier")
            x, y = self.fresh("ct"), self.fresh("r")
            sk = self.skill(a["skill"])
            self.lines.append(f"let* ({x}, {y}) := compile_and_update_combo {o.coq} {zi(a['curr_t'])} {sk} {self.mod(a['skill_modifier'])} in")
            o.coq = x
            return Sym(y, "str")
        if o.cls == "JR":
            if m == "add_resource":
                a = A("curr_t skill skill_modifier")
                o.coq = self.bind(f"JobResource.add_resource {o.coq} {zi(a['curr_t'])} {self.skill(a['skill'])} {self.mod(a['skill_modifier'])}", "jr")
                return None
            if m == "compile_job_resources":
                a = A("curr_t skill", skill=Py('(ECall "Skill" [] [("name", EStr "")])', "Skill"))
                x = self.let(f"compile_job_resources {o.coq} {zi(a['curr_t'])} (sk_name {self.skill(a['skill'])})", "jr")
                o.coq = f"(fst {x})"
                return Sym(f"(snd {x})", "str")
        if o.cls == "Tester":
            return self.tester(o, m, e, env, A)
        raise Stop(f"method {o.cls}.{m}")

    def prio(self, v):
        if v.kind == "Z":
            return v.coq
        m = re.fullmatch(r"\(\(q (\(time_to_prio \(-?\d+\)\))\) \+ \((\(-?\d+\)) # 1\)%Q\)%Q", v.coq)
        if m:
            return f"({m.group(1)} + {m.group(2)})"
        raise Stop("priority " + v.coq)

    def tester(self, o, m, e, env, A):
        if m == "test_skills":
            a = A("stats skills_and_expected_damage")
            l = lst([f"({si(x[0])}, {opt(self.mod, x[1])}, {qi(x[2])})" for x in a["skills_and_expected_damage"]])
            self.check(m, self.bind(f"skills_test {o.coq} {a['stats'].coq} {l}"))
        elif m == "test_multi_target_skills":
            a = A("stats skills_and_expected_damages")
            l = lst([f"({si(x[0])}, {si(x[1])}, {opt(self.mod, x[2])}, {lst([qi(y) for y in x[3]])})" for x in a["skills_and_expected_damages"]])
            self.check(m, self.bind(f"multi_test {o.coq} {a['stats'].coq} {l}"))
        elif m == "test_aggregate_rotation":
            a = A("rb expected_damage expected_total_time")
            self.check(m, self.bind(f"aggregate_test {o.coq} {a['rb'].coq} {qi(a['expected_damage'])} ({int(a['expected_total_time'])})"))
        elif m == "test_rotation_damage":
            a = A("rb expected_damage_instances")
            l = lst([f"({si(x[0])}, {qi(x[1])})" for x in a["expected_damage_instances"]])
            self.check(m, self.bind(f"rotation_test {o.coq} {a['rb'].coq} {l}"))
        else:
            raise Stop("tester " + m)
        return (True, "")

    # statements
    def assign(self, t, v, env):
        if isinstance(t, ast.Name):
            env[t.id] = v
        elif isinstance(t, ast.Tuple):
            if not isinstance(v, (tuple, list)) or len(v) != len(t.elts):
                raise Stop("unpack")
            for x, y in zip(t.elts, v):
                self.assign(x, y, env)
        elif isinstance(t, ast.Attribute) and isinstance(t.value, ast.Name) and t.value.id == "self":
            self.selfenv[t.attr] = v
        elif isinstance(t, ast.Subscript):
            self.ev(t.value, env)[self.ev(t.slice, env)] = v
        else:
            raise Stop("assign")

    def cond(self, c, env):
        """`if c:` marks a failure: the negation of c is what is expected."""
        if isinstance(c, ast.BoolOp) and isinstance(c.op, ast.Or):
            for x in c.values:
                self.cond(x, env)
        elif isinstance(c, ast.Compare) and len(c.ops) == 1 and isinstance(c.ops[0], ast.NotEq):
            a, b = self.ev(c.left, env), self.ev(c.comparators[0], env)
            self.check("equal", f"obs_eqb {self.obs(a)} {self.obs(b)}")
        elif isinstance(c, ast.Compare) and len(c.ops) == 1 and isinstance(c.ops[0], ast.GtE):
            a, b = self.ev(c.left, env), self.ev(c.comparators[0], env)
            self.check("less", f"qltb {qi(a)} {qi(b)}")
        elif isinstance(c, ast.UnaryOp) and isinstance(c.op, ast.Not) and isinstance(c.operand, ast.Call) \
                and ast.unparse(c.operand.func) == "math.isclose":
            a = [self.ev(x, env) for x in c.operand.args]
            k = {x.arg: self.ev(x.value, env) for x in c.operand.keywords}
            self.check("close", f"abs_close {qi(k['abs_tol'])} {qi(a[0])} {qi(a[1])}")
        else:
            raise Stop("condition " + ast.unparse(c))

    def run(self, body, env):
        for s in body:
            if isinstance(s, ast.Assign) and len(s.targets) == 1:
                self.assign(s.targets[0], self.ev(s.value, env), env)
            elif isinstance(s, ast.AugAssign):
                continue
            elif isinstance(s, ast.Expr):
                if not isinstance(s.value, ast.Constant):
                    self.ev(s.value, env)
            elif isinstance(s, ast.Return):
                return self.ev(s.value, env)
            elif isinstance(s, ast.If):
                if s.orelse or "test_passed = False" not in ast.unparse(s):
                    raise Stop("if")
                self.cond(s.test, env)
            elif isinstance(s, ast.For):
                for x in self.ev(s.iter, env):
                    self.assign(s.target, x, env)
                    self.run(s.body, env)
            elif isinstance(s, ast.Try):
                self.run(s.body, env)
            elif isinstance(s, ast.Pass):
                continue
            else:
                raise Stop(type(s).__name__)

    def text(self):
        return "\n  ".join(self.lines + [f"Ok {lst(self.checks)}"])


def test_library():
    tree = ast.parse(open(SIM + "testing/create_test_skill_library.py").read())
    fn = [x for x in tree.body if isinstance(x, ast.FunctionDef)][0]
    class Named(ast.NodeTransformer):
        def visit_Attribute(self, n):
            t = ast.unparse(n)
            return ast.copy_location(ast.Constant(CONSTS[t]), n) if t in CONSTS else n

    fn = Named().visit(fn)
    tr = G.Tr("none")
    defs, ops, seen = [], [], set()
    for s in fn.body:
        if isinstance(s, ast.Assign):
            t = s.targets[0].id
            if t == "skill_library":
                if "add_lbs" in ast.unparse(s):
                    ops.append("let* lib := add_lbs lib in")
                continue
            assert t not in seen, t
            seen.add(t)
            defs.append(f"SAsg {st(t)} {tr.e(s.value)}")
        elif isinstance(s, ast.Expr):
            c = s.value
            m = c.func.attr
            if m == "set_current_job_class":
                ops.append(f"let lib := set_current_job_class lib {st(c.args[0].value)} in")
            elif m == "add_resource":
                ops.append(f"let* j := to_jrs (py_eval {tr.e(c.args[1])}) in\n  let* lib := lib_add_resource lib {st(c.args[0].value)} j in")
            elif m == "set_status_effect_priority":
                ops.append(f"let* lib := set_status_effect_priority lib {lst([st(x.value) for x in c.args[0].elts])} in")
            elif m == "add_skill":
                a = c.args[0]
                x = f"(get_def en {st(a.id)})" if isinstance(a, ast.Name) else f"(py_eval {tr.e(a)})"
                ops.append(f"let* s := to_skill {x} in\n  let* lib := add_skill lib s in")
            else:
                raise Stop(m)
        elif not isinstance(s, ast.Return):
            raise Stop(ast.unparse(s))
    return ("Definition test_library : res library :=\n  let* en := run_defs " + lst(defs) + " in\n  let lib := lib_init \"test\" 90 in\n  "
            + "\n  ".join(ops) + "\n  Ok lib.\n")


HEAD = """From Coq Require Import ZArith QArith Qabs List String Bool.
From Verif Require Import Base Float Strings Types Lookup Stats Library Combo Channeling JobResource StatusEffect
  Events Rotation DamageBuild Damage Py GameLib.
From Conf Require Import Support.
Import ListNotations.
Open Scope string_scope.
Open Scope Z_scope.
"""


def main():
    os.makedirs(OUT, exist_ok=True)
    support = open(os.path.join(os.path.dirname(os.path.abspath(__file__)), "conformance.v.txt")).read()
    open(OUT + "/Support.v", "w").write(support + "\n" + test_library())
    n = k = 0
    for root, _, files in sorted(os.walk(REPO + "/ama_xiv_combat_sim")):
        for f in sorted(files):
            src = open(os.path.join(root, f)).read() if f.endswith(".py") else ""
            if "@TestClass.is_a_test" not in src:
                continue
            tests, skipped, lib = [], [], "test_library"
            for c in ast.parse(src).body:
                if not isinstance(c, ast.ClassDef):
                    continue
                methods = {x.name: x for x in c.body if isinstance(x, ast.FunctionDef)}
                for x in methods.values():
                    if not any("is_a_test" in ast.unparse(d) for d in x.decorator_list):
                        continue
                    t = Test(x.name, c.name, methods)
                    try:
                        for s in c.body:
                            if isinstance(s, ast.Assign):
                                t.classenv[s.targets[0].id] = ast.literal_eval(s.value)
                        if "__init__" in methods:
                            t.run(methods["__init__"].body, {})
                        if "_TestClass__version" in t.selfenv or "__version" in t.selfenv:
                            lib = f"(create_skill_library {st(t.selfenv['__version'])} {t.selfenv.get('__level', 90)})"
                        t.run(x.body, {})
                        tests.append(t)
                    except Stop as ex:
                        skipped.append((x.name, str(ex)))
            n += len(tests)
            k += len(skipped)
            with open(f"{OUT}/T_{f[:-3]}.v" if tests else os.devnull, "w") as w:
                w.write(HEAD)
                for i, t in enumerate(tests):
                    w.write(f"Definition t{i} (lib : library) : res (list (string * bool)) :=\n  {t.text()}.\n")
                w.write("Definition tests := " + lst([f"({st(t.name)}, t{i})" for i, t in enumerate(tests)]) + ".\n")
                w.write(f"Eval vm_compute in (let* lib := {lib} in Ok ({st(f)}, {len(tests)}, {sum(len(t.checks) for t in tests)}, verdict lib tests)).\n")
            print(f"{os.path.relpath(os.path.join(root, f), REPO)}: {len(tests)} tests" + "".join(f"\n  skipped {a}: {b}" for a, b in skipped))
    print(f"{n} tests written, {k} skipped")


main()
