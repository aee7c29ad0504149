#!/usr/bin/env python3
"""Generate rocq/theories/SchemaTables.v from the schema files in /repo/fastkml/schema.

kml22gx.xsd and what it imports: ogckml22.xsd and atom-author-link.xsd.  Only
the XML parser of the standard library is used.
Usage: gen_schema.py /repo/fastkml/schema > rocq/theories/SchemaTables.v
"""
import os
import sys
import xml.etree.ElementTree as ET

R = sys.argv[1]
X = "{http://www.w3.org/2001/XMLSchema}"
FILES = [("kml", "ogckml22.xsd"), ("gx", "kml22gx.xsd"), ("atom", "atom-author-link.xsd")]
URI, els, types, groups = {}, {}, {}, {}
for p, f in FILES:
    r = ET.parse(os.path.join(R, f)).getroot()
    URI[p] = r.get("targetNamespace")
    assert r.get("elementFormDefault") == "qualified" and r.get("attributeFormDefault") is None
    for e in r:
        n = (p, e.get("name"))
        if e.tag == X + "element":
            els[n] = e
        elif e.tag in (X + "complexType", X + "simpleType"):
            types[n] = e
        elif e.tag == X + "attributeGroup":
            groups[n] = e
        else:
            assert e.tag in (X + "import", X + "annotation"), e.tag
URI["xal"] = "urn:oasis:names:tc:ciq:xsdschema:xAL:2.0"
LOCAL = []
SKIP = (X + "annotation",)


def qn(s):
    """A QName: the prefixes are the same in all files, no prefix is XML Schema."""
    return tuple(s.split(":")) if ":" in s else ("xs", s)


def subst(h):
    """The elements that can stand for the element [h]: its substitution group."""
    out = [h] if els[h].get("abstract") != "true" else []
    for n, e in els.items():
        g = e.get("substitutionGroup")
        if g and qn(g) == h:
            out += subst(n)
    return out


def eltype(n):
    e = els[n]
    if e.get("type"):
        return qn(e.get("type"))
    for c in e:
        if c.tag in (X + "complexType", X + "simpleType"):
            types[("anon", n[0] + "_" + n[1])] = c
            return ("anon", n[0] + "_" + n[1])
    if e.get("substitutionGroup"):
        return eltype(qn(e.get("substitutionGroup")))
    return ("xs", "anyType")


def s(x):
    return '"%s"' % x


def name(n):
    return "(%s, %s)" % (s(n[0]), s(n[1]))


def lst(l):
    return "[" + "; ".join(l) + "]"


def occurs(e):
    mx = e.get("maxOccurs", "1")
    return "%d %s" % (int(e.get("minOccurs", "1")), "None" if mx == "unbounded" else "(Some %d)" % int(mx))


def particle(e):
    if e.tag == X + "element":
        if e.get("name"):
            LOCAL.append((("kml", e.get("name")), qn(e.get("type"))))
            return "PEl %s %s" % (lst([name(LOCAL[-1][0])]), occurs(e))
        r = qn(e.get("ref"))
        m = subst(r) if r in els else [r]
        assert r in els or r[0] == "xal", r
        return "PEl %s %s" % (lst(map(name, m)), occurs(e))
    if e.tag == X + "any":
        other = {"##any": "None", "##other": '(Some "kml")'}[e.get("namespace")]  # both are in ogckml22.xsd
        return "PAny %s %s" % (other, occurs(e))
    k = {X + "sequence": "PSeq", X + "choice": "PChoice"}[e.tag]
    return "%s %s %s" % (k, lst(particle(c) for c in e if c.tag not in SKIP), occurs(e))


def simple(t):
    """Is [t] a simple type?"""
    return t[0] == "xs" and t[1] != "anyType" or t in types and types[t].tag == X + "simpleType"


def attrs(body):
    out = []
    for c in body:
        if c.tag == X + "attribute":
            t = qn(c.get("type")) if c.get("type") else ("xs", "anySimpleType")
            out.append("(%s, %s, %s)" % (s(c.get("name")), "true" if c.get("use") == "required" else "false", name(t)))
        elif c.tag == X + "attributeGroup":
            out += attrs(groups[qn(c.get("ref"))])
        elif c.tag == X + "anyAttribute":
            raise AssertionError
    return out


def content(t):
    """The particles, attributes and, for simple content, the type of the text."""
    if simple(t):
        return [], [], t
    if t == ("xs", "anyType"):
        raise KeyError
    e = types[t]
    assert e.get("mixed") is None
    cc, sc = e.find(X + "complexContent"), e.find(X + "simpleContent")
    parts, at, tx, body = [], [], None, e
    if cc is not None:
        x = cc.find(X + "extension")
        assert x is not None and cc.find(X + "restriction") is None
        parts, at, tx = content(qn(x.get("base")))
        parts, at, body = list(parts), list(at), x
    elif sc is not None:
        x = sc.find(X + "extension")
        assert x is not None
        parts, at, tx = content(qn(x.get("base")))
        parts, at, body = list(parts), list(at), x
    for c in body:
        if c.tag in (X + "sequence", X + "choice"):
            parts.append(particle(c))
        else:
            assert c.tag in SKIP + (X + "attribute", X + "attributeGroup"), c.tag
    return parts, at + attrs(body), tx


PENDING = []


def ident(t):
    return ("ty_%s_%s" % t).replace("-", "_")


def show(t):
    LOCAL.clear()
    parts, at, tx = content(t)
    loc = [(a, ident(b)) for a, b in LOCAL]
    assert len(set(a for a, _ in loc)) == len(loc)
    PENDING.extend(b for _, b in LOCAL)
    p = parts[0] if len(parts) == 1 else "PSeq %s 1 (Some 1)" % lst(parts)
    return "mkDecl (%s)\n  %s %s %s" % (p, lst(at), "(Some %s)" % name(tx) if tx else "None",
        lst("(%s, %s)" % (name(a), s(b)) for a, b in loc))


print("""(** * The content models of the bundled schema (generated).

    Generated by tools/gen_schema.py from fastkml/schema/kml22gx.xsd and the
    files it imports, ogckml22.xsd and atom-author-link.xsd.  Substitution groups
    are expanded and the content of a base type is put in front of the
    content of the types that extend it, as XML Schema says. *)
From Coq Require Import String List.
From Verif Require Import Schema.
Import ListNotations.
Local Open Scope string_scope.
""")
print("Definition schema_uris : list (string * string) :=\n  %s.\n" % lst("(%s, %s)" % (s(k), s(v)) for k, v in URI.items()))
order = [n for n, e in els.items() if e.get("abstract") != "true" and eltype(n) != ("xs", "anyType")]
PENDING[:] = [eltype(n) for n in order]
done = []
while PENDING:
    ty = PENDING.pop(0)
    if ident(ty) not in done:
        done.append(ident(ty))
        print("Definition %s : decl := %s.\n" % (ident(ty), show(ty)))
print("Definition schema_types : list (string * decl) :=\n  [%s].\n" % ";\n   ".join("(%s, %s)" % (s(d), d) for d in done))
print("Definition schema_elements : list (sname * string) :=\n  [%s].\n" % ";\n   ".join(
    "(%s, %s)" % (name(n), s(ident(eltype(n)))) for n in order))


def enum(t):
    r = types[t].find(X + "restriction")
    return [c.get("value") for c in r if c.tag == X + "enumeration"] if r is not None else []


print("(** The simple types that list their values. *)")
print("Definition schema_enums : list (sname * list string) :=\n  [%s]." % ";\n   ".join(
    "(%s, %s, %s)" % (s(t[0]), s(t[1]), lst(map(s, enum(t)))) for t, e in types.items()
    if e.tag == X + "simpleType" and enum(t)))

print("\n(** The default values of the elements and, by type, of the attributes. *)")
print("Definition schema_defaults : list (sname * string) :=\n  [%s].\n" % ";\n   ".join(
    "(%s, %s)" % (name(n), s(e.get("default"))) for n, e in els.items() if e.get("default") is not None))


def attr_defaults(t):
    """The attributes of the type with a default, as in [content]."""
    if simple(t):
        return []
    e, out, body = types[t], [], types[t]
    for k in ("complexContent", "simpleContent"):
        if e.find(X + k) is not None:
            body = e.find(X + k).find(X + "extension")
            out = attr_defaults(qn(body.get("base")))
    for c in body:
        b = groups[qn(c.get("ref"))] if c.tag == X + "attributeGroup" else [c]
        out = out + [(a.get("name"), a.get("default")) for a in b if a.tag == X + "attribute" and a.get("default") is not None]
    return out


names = {ident(t): t for t in list(types) + [("xs", "string")] if ident(t) in done}
print("Definition schema_attr_defaults : list (string * list (string * string)) :=\n  [%s]." % ";\n   ".join(
    "(%s, %s)" % (s(d), lst("(%s, %s)" % (s(a), s(b)) for a, b in attr_defaults(names[d]))) for d in done if d in names and attr_defaults(names[d])))
