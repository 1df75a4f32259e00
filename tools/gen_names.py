#!/usr/bin/env python3
"""Writes rocq/theories/StdNames.v from net/echonet/database_mra_objects.go.

The names of every newStandardObject/newStandardProperty call in initObjects, in
file order; a line that fits none of the known shapes stops the script.
"""
import re, sys

SRC = sys.argv[1] if len(sys.argv) > 1 else "/repo/net/echonet/database_mra_objects.go"
DST = sys.argv[2] if len(sys.argv) > 2 else "/verif/rocq/theories/StdNames.v"
OBJ = re.compile(r'^\tobj = newStandardObject\("([^"\\]*)", 0x([0-9A-F]+), 0x([0-9A-F]+)\)$')
PROP = re.compile(r'^\tobj\.AddProperty\(newStandardProperty\(0x([0-9A-F]+), "([^"\\]*)", "[^"]*", [0-9]+, '
                  r'"[A-Za-z_]*", "[A-Za-z_]*", "[A-Za-z_]*"\)\)$')
classes, cur, inside = [], None, False
for n, line in enumerate(open(SRC, encoding="utf-8"), 1):
    line = line.rstrip("\n")
    if line.startswith("func (db *stdDatabase) initObjects()"):
        inside = True
        continue
    if not inside or line.strip() == "" or line.startswith("\t//") or line in ("\tvar obj Object", "}"):
        continue
    assert line.isascii(), n
    m = OBJ.match(line)
    if m:
        assert cur is None, n
        cur = dict(first=n, name=m.group(1), grp=int(m.group(2), 16), cls=int(m.group(3), 16), props=[])
        continue
    m = PROP.match(line)
    if m:
        cur["props"].append((int(m.group(1), 16), m.group(2)))
        continue
    if line == "\tdb.addObject(obj)":
        cur["last"] = n
        classes.append(cur)
        cur = None
        continue
    sys.exit("line %d not understood: %s" % (n, line))
assert cur is None
last = classes[-1]["last"]
out = ["(** Generated by tools/gen_names.py from net/echonet/database_mra_objects.go:",
       "    the names in the calls of initObjects (L36-L%d) in file order, duplicates kept. *)" % last,
       "", "From Coq Require Import String.", "From Verif Require Import Go.",
       "Local Open Scope Z_scope.", "Local Open Scope string_scope.", "",
       "(** The names of one class (newStandardObject L7) and of the properties of its",
       "    AddProperty calls (newStandardProperty L15). *)",
       "Record name_class : Set := NC { nc_grp : Z; nc_cls : Z; nc_name : string; nc_props : list (Z * string) }.", "",
       "(** database_mra_objects.go L36-L%d. *)" % last,
       "Definition name_table : list name_class :=", "  ["]
for i, c in enumerate(classes):
    out.append("  (* L%d-L%d *)" % (c["first"], c["last"]))
    out.append("  NC %d %d \"%s\"" % (c["grp"], c["cls"], c["name"]))
    for j, p in enumerate(c["props"]):
        out.append("    %s(%d, \"%s\")%s" % ("[" if j == 0 else " ", *p, ";" if j + 1 < len(c["props"]) else "]"))
    if not c["props"]:
        out.append("    []")
    out[-1] += ";" if i + 1 < len(classes) else "]."
open(DST, "w").write("\n".join(out) + "\n")
print(len(classes), "classes", sum(len(c["props"]) for c in classes), "properties")
