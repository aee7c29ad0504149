#!/usr/bin/env python3
"""Generate rocq/theories/Tables.v from the source text in /repo/fastkml.

Only the `ast` module is used: nothing of fastkml is imported or run.
Usage: gen_tables.py /repo/fastkml > rocq/theories/Tables.v
"""
import ast
import os
import sys

R = sys.argv[1]
mods = {}
for f in sorted(os.listdir(R)):
    if f.endswith(".py") and f != "__init__.py":
        mods[f[:-3]] = ast.parse(open(os.path.join(R, f)).read())

# --- name resolution ---------------------------------------------------------
names = {m: {} for m in mods}          # module -> local name -> qualified
for m, t in mods.items():
    for n in ast.walk(t):
        if isinstance(n, ast.ImportFrom) and n.module:
            if n.module == "fastkml":
                for a in n.names:
                    names[m][a.asname or a.name] = ("mod", a.name)
            elif n.module.startswith("fastkml."):
                for a in n.names:
                    names[m][a.asname or a.name] = ("name", n.module[8:] + "." + a.name)
    for n in t.body:
        if isinstance(n, ast.ClassDef):
            names[m][n.name] = ("name", m + "." + n.name)

def resolve(m, e):
    if isinstance(e, ast.Name):
        if e.id in names[m]:
            return names[m][e.id][1]
        return e.id
    if isinstance(e, ast.Attribute):
        b = e.value
        if isinstance(b, ast.Name) and names[m].get(b.id, ("", ""))[0] == "mod":
            return names[m][b.id][1] + "." + e.attr
    return ast.unparse(e)

classes = {}
for m, t in mods.items():
    for n in t.body:
        if isinstance(n, ast.ClassDef):
            classes[m + "." + n.name] = (m, n, [resolve(m, b) for b in n.bases])

built = {}
def build(q):
    if q not in classes:
        return None
    if q not in built:
        bases = tuple(b for b in (build(x) for x in classes[q][2]) if b)
        built[q] = type(q, bases, {})
    return built[q]

def mro(q):
    return [c.__name__ for c in build(q).__mro__ if c is not object]

XML = "base._XMLObject"
xml_classes = [q for q in classes if XML in mro(q)]
enum_classes = [q for q in classes if q.startswith("enums.") and "enums.RelaxedEnum" in mro(q) and q != "enums.RelaxedEnum"]

def member(q, name):
    """First definition of a method in the MRO: (owner, node)."""
    for c in mro(q):
        for n in classes[c][1].body:
            if isinstance(n, ast.FunctionDef) and n.name == name:
                return c, n
    return None, None

# --- tag names -----------------------------------------------------------------
def tag(q):
    o, n = member(q, "get_tag_name")
    ret = [x for x in ast.walk(n) if isinstance(x, ast.Return)][0].value
    s = ast.unparse(ret)
    name = classes[q][1].name
    if s == "cls.__name__":
        return name
    if s == "cls.__name__.lower()":
        return name.lower()
    assert isinstance(ret, ast.Constant), s
    return ret.value

CONST = {"config.KML": "kml", "config.ATOM": "atom", "config.GX": "gx"}
def nsid(q):
    for c in mro(q):
        for n in classes[c][1].body:
            if isinstance(n, (ast.Assign, ast.AnnAssign)):
                t = n.targets[0] if isinstance(n, ast.Assign) else n.target
                if isinstance(t, ast.Name) and t.id == "_default_nsid" and n.value is not None:
                    s = ast.unparse(n.value)
                    return CONST.get(s, s.strip("'\""))
    raise Exception(q)

# --- constructors --------------------------------------------------------------
# Attributes whose constructor code is not a one-line assignment; each line was
# read by hand.  The entry gives the kind used when the alternative arguments
# (geometry, icon_href) are absent, which is the case whenever the reader runs.
def kind_of(attr, src):
    if src == attr: return "CRaw"
    if src == f"clean_string({attr})": return "CClean"
    if src == f"{attr} or ''": return "COrEmpty"
    if src == f"{attr} or None": return "COrNone"
    if src == f"list({attr}) if {attr} else []": return "CListTruthy"
    if src == f"list({attr}) if {attr} is not None else []": return "CListNotNone"
    if src == f"{attr} or []": return "CCoordsOr"
    return None

def init_seq(q):
    """Flattened assignments: list of (attr, kind, owner, line) and 'BASE'."""
    order = mro(q)
    def run(i):
        while i < len(order):
            c = order[i]
            init = [n for n in classes[c][1].body if isinstance(n, ast.FunctionDef) and n.name == "__init__"]
            if init:
                break
            i += 1
        else:
            return [], set(), True
        n = init[0]
        if c == XML:
            return ["BASE"], set(), n.args.kwarg is not None
        params = {a.arg for a in n.args.args[1:] + n.args.kwonlyargs}
        kw = n.args.kwarg is not None
        out = []
        req = False
        for s in n.body:
            src = ast.unparse(s)
            if isinstance(s, ast.Expr) and isinstance(s.value, ast.Constant):
                continue
            if src.startswith("super().__init__("):
                fwd = False
                for k in s.value.keywords:
                    if k.arg is None:
                        assert ast.unparse(k.value) == "kwargs"; fwd = True
                    else:
                        assert k.arg == ast.unparse(k.value), (c, src)
                sub, p2, k2 = run(i + 1)
                out += sub
                kw = kw and fwd and k2
                # arguments of the ancestors that this constructor does not name
                # reach them through **kwargs
                params |= p2
                continue
            if isinstance(s, (ast.Assign, ast.AnnAssign)):
                t = s.targets[0] if isinstance(s, ast.Assign) else s.target
                if isinstance(t, ast.Attribute) and ast.unparse(t.value) == "self":
                    v = ast.unparse(s.value)
                    k = kind_of(t.attr, v)
                    if (c, t.attr) == ("gx.Track", "track_items"): k = "CTrack"
                    if (c, t.attr) == ("gx.MultiTrack", "tracks"):
                        assert v == "[t for t in tracks if t] if tracks else []"; k = "CFilter"
                    if (c, t.attr) == ("data.ExtendedData", "elements"):
                        k = "CFilter"; print("FILTER", v, file=sys.stderr)
                    if req and t.attr == "id": k = "CCleanReq"
                    assert k, (c, t.attr, v)
                    out.append((t.attr, k, c, s.lineno))
                    continue
            if c == "data.Schema" and src.startswith("if not id:"):
                req = True
                continue
            print("HAND", c, s.lineno, src.replace("\n", " / "), file=sys.stderr)
            if c == "geometry.Point" and src == "kwargs.pop('tessellate', None)":
                params.add("tessellate")
        return out, params, kw
    return run(0)

def pre_post(q):
    seq, params, kw = init_seq(q)
    if "BASE" in seq:
        i = seq.index("BASE")
        pre, post = seq[:i], seq[i + 1:]
    else:
        pre, post = seq, []
    # a later assignment of the same attribute replaces the earlier one
    def dedupe(l):
        last = {}
        for a in l: last[a[0]] = a
        return [last[a[0]] for j, a in enumerate(l) if a[0] not in [x[0] for x in l[:j]]]
    post_names = {a[0] for a in post}
    return dedupe([a for a in pre]), dedupe(post), sorted(params - {"ns", "name_spaces"}), kw

# --- __bool__ --------------------------------------------------------------------
def bexpr(e):
    if isinstance(e, ast.Constant) and e.value is True: return "BTrue"
    if isinstance(e, ast.Compare):
        assert ast.unparse(e).endswith(" is not None") and e.left.value.id == "self"
        return f'(BNotNone "{e.left.attr}")'
    if isinstance(e, ast.BoolOp):
        c = "BAnd" if isinstance(e.op, ast.And) else "BOr"
        xs = [bexpr(x) for x in e.values]
        r = xs[-1]
        for x in reversed(xs[:-1]): r = f"({c} {x} {r})"
        return r
    if isinstance(e, ast.Call):
        fn = e.func.id
        a = e.args[0]
        if fn == "bool":
            if a.attr == "geometry": return "BGeometry"
            return f'(BAttr "{a.attr}")'
        if isinstance(a, (ast.Tuple, ast.List)):
            c = "BAnd" if fn == "all" else "BOr"
            xs = [bexpr(x) for x in a.elts]
            r = xs[-1]
            for x in reversed(xs[:-1]): r = f"({c} {x} {r})"
            return r
        assert fn == "any"
        return f'(BAny "{a.attr}")'
    if isinstance(e, ast.Attribute):
        return f'(BAttr "{e.attr}")'
    raise Exception(ast.unparse(e))

def bool_of(q):
    o, n = member(q, "__bool__")
    if n is None: return "BTrue", None, None
    ret = [x for x in ast.walk(n) if isinstance(x, ast.Return)]
    assert len(ret) == 1
    return bexpr(ret[0].value), o, n

GK = {"geometry.Point": "GkPoint", "geometry.LineString": "GkLine", "geometry.LinearRing": "GkRing",
      "geometry.BoundaryIs": "GkBoundary", "geometry.Polygon": "GkPolygon", "geometry.MultiGeometry": "GkMulti",
      "features.Placemark": "GkPlacemark", "model.Location": "GkLocation", "model.Model": "GkModel",
      "gx.Track": "GkTrack", "gx.MultiTrack": "GkMultiTrack"}
def geom_of(q):
    for c in mro(q):
        for n in classes[c][1].body:
            if isinstance(n, ast.FunctionDef) and n.name == "geometry":
                return GK[c], c, n
    return "GkNone", None, None

# --- registry --------------------------------------------------------------------
GET = {"node_text_kwarg": "GNodeText", "subelement_text_kwarg": "GText", "attribute_text_kwarg": "GAttrText",
       "subelement_bool_kwarg": "GBool", "subelement_int_kwarg": "GInt", "attribute_int_kwarg": "GAttrInt",
       "subelement_float_kwarg": "GFloat", "attribute_float_kwarg": "GAttrFloat", "subelement_enum_kwarg": "GEnum",
       "attribute_enum_kwarg": "GAttrEnum", "datetime_subelement_kwarg": "GDate",
       "datetime_subelement_list_kwarg": "GDates", "coords_subelement_list_kwarg": "GCoordList",
       "subelement_coordinates_kwarg": "GCoords", "xml_subelement_kwarg": "GObj", "xml_subelement_list_kwarg": "GObjs"}
SET = {"node_text": "SNodeText", "text_subelement": "SText", "text_attribute": "SAttrText",
       "bool_subelement": "SBool", "int_subelement": "SInt", "int_attribute": "SAttrInt",
       "float_subelement": "SFloat", "float_attribute": "SAttrFloat", "enum_subelement": "SEnum",
       "enum_attribute": "SAttrEnum", "datetime_subelement": "SDate", "datetime_subelement_list": "SDates",
       "coords_subelement_list": "SCoordList", "coordinates_subelement": "SCoords", "xml_subelement": "SObj",
       "xml_subelement_list": "SObjs"}

enum_values = {}
for q in enum_classes:
    vals = []
    for n in classes[q][1].body:
        if isinstance(n, ast.Assign):
            vals.append((n.targets[0].id, n.value.value))
    enum_values[q] = vals

def default(m, e):
    if e is None: return "VNone"
    if isinstance(e, ast.Constant):
        v = e.value
        if v is None: return "VNone"
        if isinstance(v, bool): return f"(VBool {'true' if v else 'false'})"
        if isinstance(v, int): return f"(VInt ({v}))"
        if isinstance(v, float): return f"(VFloat {flt(v)})"
        if isinstance(v, str): return f'(VStr (u "{v}"))'
    if isinstance(e, ast.UnaryOp):
        v = ast.literal_eval(e)
        if isinstance(v, int): return f"(VInt ({v}))"
        return f"(VFloat {flt(v)})"
    if isinstance(e, ast.Tuple):
        return "(VPoint [" + "; ".join(f"NFloat {flt(x.value)}" for x in e.elts) + "])"
    if isinstance(e, ast.Attribute):
        q = resolve(m, e.value)
        v = dict(enum_values[q])[e.attr]
        return f'(VEnum "{q}" (u "{v}"))'
    raise Exception(ast.unparse(e))

def flt(v):
    # significand and biased exponent of a double: v = m * 2^(E - 1074)
    import math
    neg = "true" if math.copysign(1, v) < 0 else "false"
    v = abs(v)
    if v == 0: return f"(FFin {neg} 0 0)"
    mant, ex = math.frexp(v)
    mm = int(mant * 2**53); E = ex - 53 + 1074
    assert E >= 0 and mm * 2.0**(E-1074) == v
    return f"(FFin {neg} {mm} {E})"

rows = []
for m, t in mods.items():
    for n in t.body:
        if isinstance(n, ast.Expr) and isinstance(n.value, ast.Call) and ast.unparse(n.value.func) == "registry.register":
            c = n.value
            it = ([k.value for k in c.keywords if k.arg == "item"] or [c.args[1]])[0]
            assert not it.args
            d = {k.arg: k.value for k in it.keywords}
            rows.append((m, resolve(m, c.args[0]), n.lineno, n.end_lineno, d))

def coq_strs(l):
    return "[" + "; ".join(f'"{x}"' for x in l) + "]"

print("""(** * The classes, enumerations and registry of fastkml.

    Generated by /verif/tools/gen_tables.py from the text of /repo/fastkml; each
    entry cites the lines it comes from.  Do not edit. *)
From Coq Require Import String List NArith ZArith Bool.
From Verif Require Import Ustr Res PyInt PyFloat PyDate Elem Value.
Import ListNotations.
Local Open Scope string_scope.
Local Open Scope Z_scope.
""")

print("(** ** Enumerations (enums.py) *)\n")
for q in enum_classes:
    n = classes[q][1]
    has = any(isinstance(x, ast.FunctionDef) and x.name == "get_ns_id" for x in n.body)
    items = []
    for k, v in enum_values[q]:
        if has:
            i = "gx" if k in ("clamp_to_sea_floor", "relative_to_sea_floor") else "kml"
            items.append(f'(u "{v}", Some "{i}")')
        else:
            items.append(f'(u "{v}", None)')
    print(f"(** {q.split('.')[0]}.py:{n.lineno}-{n.end_lineno} *)")
    print(f"Definition en_{n.name} : enum_info :=\n  [" + ";\n   ".join(items) + "].\n")
print("Definition fk_enums : list (string * enum_info) :=\n  [" +
      ";\n   ".join(f'("{q}", en_{classes[q][1].name})' for q in enum_classes) + "].\n")

def ident(q): return q.replace(".", "_")
print("(** ** Classes *)\n")
for q in xml_classes:
    m, n, _ = classes[q]
    pre, post, params, kw = pre_post(q)
    b, bo, bn = bool_of(q)
    g, go, gn = geom_of(q)
    cite = [f"{m}.py:{n.lineno}-{n.end_lineno}"]
    for a, k, c, l in pre + post:
        pass
    owners = {}
    for a, k, c, l in pre + post: owners.setdefault(c, []).append(f"{l}")
    cite.append("attributes " + ", ".join(f"{c.split('.')[0]}.py:{'/'.join(ls)}" for c, ls in owners.items()))
    if bn: cite.append(f"__bool__ {bo.split('.')[0]}.py:{bn.lineno}-{bn.end_lineno}")
    if gn: cite.append(f"geometry {go.split('.')[0]}.py:{gn.lineno}-{gn.end_lineno}")
    print(f"(** {'; '.join(cite)} *)")
    f = lambda l: "[" + "; ".join(f'("{a}", {k})' for a, k, _, _ in l) + "]"
    print(f"Definition cl_{ident(q)} : class_info := mkCls\n  {coq_strs(mro(q))}\n  \"{tag(q)}\" \"{nsid(q)}\"\n"
          f"  {f(pre)}\n  {f(post)}\n  {coq_strs(params)}\n  {'true' if kw else 'false'} {b} {g} {'true' if q == 'kml.KML' else 'false'}.\n")
print("Definition fk_classes : list (string * class_info) :=\n  [" +
      ";\n   ".join(f'("{q}", cl_{ident(q)})' for q in xml_classes) + "].\n")

print("(** ** Registry: the [registry.register] calls in import order per class *)\n")
byc = {}
for i, (m, c, a, z, d) in enumerate(rows):
    byc.setdefault(c, []).append((m, a, z, d))
for c, l in byc.items():
    print(f"Definition rg_{ident(c)} : list item := [")
    out = []
    for m, a, z, d in l:
        ns = [x.value for x in d["ns_ids"].elts]
        cl = [resolve(m, x) for x in d["classes"].elts]
        node = d["node_name"].value
        out.append(f"  (* {m}.py:{a}-{z} *)\n  mkItm {coq_strs(ns)} {coq_strs(cl)} \"{d['attr_name'].value}\" "
                   f"{GET[d['get_kwarg'].id]} {SET[d['set_element'].id]} \"{node}\" {default(m, d.get('default'))}")
    print(";\n".join(out) + "].\n")
print("Definition fk_registry : list (string * list item) :=\n  [" +
      ";\n   ".join(f'("{c}", rg_{ident(c)})' for c in byc) + "].\n")
print("""(** The library as shipped; [arrow] stands for [arrow.get(text).datetime]. *)
Definition fastkml (arrow : ustr -> option datetime) : world :=
  mkWorld fk_classes fk_enums fk_registry arrow.""")
