#!/usr/bin/env python3
"""Generate rocq/theories/Reprs.v: what each [__repr__] in /repo/fastkml prints.

Only the `ast` module is used: nothing of fastkml is imported or run.
Usage: gen_reprs.py /repo/fastkml > rocq/theories/Reprs.v
"""
import ast
import os
import sys

R = sys.argv[1]
out = []
for f in sorted(os.listdir(R)):
    if not f.endswith(".py") or f in ("__init__.py", "registry.py"):
        continue
    m = f[:-3]
    for c in ast.parse(open(os.path.join(R, f)).read()).body:
        if not isinstance(c, ast.ClassDef):
            continue
        for d in c.body:
            if isinstance(d, ast.FunctionDef) and d.name == "__repr__":
                if m == "times" and c.name == "KmlDateTime":
                    continue
                body = [s for s in d.body if not (isinstance(s, ast.Expr) and isinstance(s.value, ast.Constant))]
                assert len(body) == 1 and isinstance(body[0], ast.Return), (m, c.name)
                parts = body[0].value.values
                # the class name
                assert ast.unparse(parts[0].value) == "self.__class__.__module__"
                assert parts[1].value == "."
                assert ast.unparse(parts[2].value) == "self.__class__.__name__"
                label, args, splat = parts[3].value, [], False
                assert label[0] == "("
                label = label[1:]
                for p in parts[4:]:
                    if isinstance(p, ast.Constant):
                        label = p.value
                        continue
                    assert isinstance(p, ast.FormattedValue) and p.format_spec is None
                    src = ast.unparse(p.value)
                    label = label.lstrip(", ")
                    if src == "self._get_splat()":
                        assert label == "**", label   # str(dict) and repr(dict) are the same
                        splat = True
                    else:
                        assert src.startswith("self.") and src[5:].isidentifier(), src
                        assert label.endswith("="), (m, c.name, label)
                        assert p.conversion in (-1, 114)
                        args.append((label[:-1], src[5:], p.conversion == 114))
                assert label == ",)", (m, c.name, label)
                assert splat and args[:2] == [("ns", "ns", True), ("name_spaces", "name_spaces", True)], (m, c.name)
                out.append((f"{m}.{c.name}", f"{f}:{d.lineno}-{d.end_lineno}", args[2:]))
print("""(** * What the [__repr__] methods print.

    Generated by /verif/tools/gen_reprs.py from the text of /repo/fastkml; each
    entry cites the lines it comes from.  Do not edit.  All of them print
    [module.Class(ns=..., name_spaces=..., ARGS, **SPLAT,)]; listed are the
    ARGS: name of the argument, attribute it is taken from, and whether it is
    printed with [repr] (otherwise with [str]).  [KmlDateTime] is in Repr.v. *)
From Coq Require Import String List.
Import ListNotations.
Local Open Scope string_scope.

Definition repr_args : list (string * list (string * string * bool)) :=
  [""", end="")
sep = ""
for n, loc, args in out:
    text = "; ".join('("%s", "%s", %s)' % (a, b, str(r).lower()) for a, b, r in args)
    print('%s(* %s *)\n   ("%s", [%s])' % (sep, loc, n, text), end="")
    sep = ";\n   "
print("].")
