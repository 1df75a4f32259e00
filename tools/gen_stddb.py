#!/usr/bin/env python3
"""Writes rocq/theories/StdDB.v from net/echonet/database_mra_objects.go.

Every call newStandardObject/newStandardProperty/addObject in initObjects is
read in file order; a line that fits none of the three shapes stops the script.
"""
import re, sys

SRC = sys.argv[1] if len(sys.argv) > 1 else "/repo/net/echonet/database_mra_objects.go"
DST = sys.argv[2] if len(sys.argv) > 2 else "/verif/rocq/theories/StdDB.v"
RULE = {"required": "RRequired", "optional": "ROptional", "notApplicable": "RNotApplicable",
        "required_c": "RRequiredC", "required_o": "RRequiredO"}
OBJ = re.compile(r'^\tobj = newStandardObject\("((?:[^"\\]|\\.)*)", 0x([0-9A-F]+), 0x([0-9A-F]+)\)$')
PROP = re.compile(r'^\tobj\.AddProperty\(newStandardProperty\(0x([0-9A-F]+), "((?:[^"\\]|\\.)*)", "[^"]*", [0-9]+, '
                  r'"([A-Za-z_]*)", "([A-Za-z_]*)", "([A-Za-z_]*)"\)\)$')
classes, cur, inside = [], None, False
for n, line in enumerate(open(SRC, encoding="utf-8"), 1):
    line = line.rstrip("\n")
    if line.startswith("func (db *stdDatabase) initObjects()"):
        inside = True
        continue
    if not inside or line.strip() == "" or line.startswith("\t//") or line in ("\tvar obj Object", "}"):
        continue
    m = OBJ.match(line)
    if m:
        assert cur is None, n
        cur = dict(first=n, name=m.group(1), grp=int(m.group(2), 16), cls=int(m.group(3), 16), props=[])
        continue
    m = PROP.match(line)
    if m:
        cur["props"].append((int(m.group(1), 16),) + tuple(RULE[m.group(i)] for i in (3, 4, 5)))
        continue
    if line == "\tdb.addObject(obj)":
        cur["last"] = n
        classes.append(cur)
        cur = None
        continue
    sys.exit("line %d not understood: %s" % (n, line))
assert cur is None
out = ["(** Generated by tools/gen_stddb.py from net/echonet/database_mra_objects.go:",
       "    the calls of initObjects (L36-L%d) in file order, duplicates kept." % classes[-1]["last"],
       "    Simplified: names, data types and data sizes are left out, the constructor",
       "    newStandardProperty (L15-L33) ignores the type and the size. *)",
       "", "From Verif Require Import Go.", "Local Open Scope Z_scope.", "",
       "(** The access rule strings of the table: \"required\", \"optional\",",
       "    \"notApplicable\", \"required_c\", \"required_o\"; no other string occurs. *)",
       "Inductive rule : Set := RRequired | ROptional | RNotApplicable | RRequiredC | RRequiredO.", "",
       "(** One newStandardProperty call (L15): code, get rule, set rule, announce rule. *)",
       "Record mra_entry : Set := PE { pe_code : Z; pe_get : rule; pe_set : rule; pe_anno : rule }.", "",
       "(** One class (newStandardObject L7 and its AddProperty calls). *)",
       "Record mra_class : Set := CL { cl_grp : Z; cl_cls : Z; cl_entries : list mra_entry }.", "",
       "(** database_mra_objects.go L36-L%d. *)" % classes[-1]["last"],
       "Definition mra_table : list mra_class :=", "  ["]
for i, c in enumerate(classes):
    out.append("  (* L%d-L%d %s *)" % (c["first"], c["last"], re.sub(r'["()*]', " ", c["name"])))
    out.append("  CL %d %d" % (c["grp"], c["cls"]))
    for j, p in enumerate(c["props"]):
        out.append("    %sPE %d %s %s %s%s" % ("[" if j == 0 else " ", *p, ";" if j + 1 < len(c["props"]) else "]"))
    if not c["props"]:
        out.append("    []")
    out[-1] += ";" if i + 1 < len(classes) else "]."
open(DST, "w").write("\n".join(out) + "\n")
print(len(classes), "classes", sum(len(c["props"]) for c in classes), "properties")
