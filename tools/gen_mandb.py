#!/usr/bin/env python3
"""Writes rocq/theories/ManDB.v from net/echonet/database_manufacturers.go.

Every addManufacture call of initManufactures is read in file order; a line of
the function that has another shape stops the script.
"""
import re, sys

SRC = sys.argv[1] if len(sys.argv) > 1 else "/repo/net/echonet/database_manufacturers.go"
DST = sys.argv[2] if len(sys.argv) > 2 else "/verif/rocq/theories/ManDB.v"
CALL = re.compile(r'^\tdb\.addManufacture\(newManufacture\(0x([0-9A-F]+), "([^"\\]*)"\)\)$')
calls, inside = [], False
for n, line in enumerate(open(SRC, encoding="utf-8"), 1):
    line = line.rstrip("\n")
    if line.startswith("func (db *stdDatabase) initManufactures()"):
        inside = True
        continue
    if not inside or line == "}": continue
    m = CALL.match(line)
    if not m: sys.exit("line %d not understood: %s" % (n, line))
    assert m.group(2).isascii()
    calls.append((n, int(m.group(1), 16), m.group(2)))
out = ["(** Generated by tools/gen_mandb.py from net/echonet/database_manufacturers.go:",
       "    the calls of initManufactures (L%d-L%d) in file order. *)" % (calls[0][0], calls[-1][0]),
       "", "From Coq Require Import String.", "From Verif Require Import Go.", "Local Open Scope Z_scope.", "",
       "(** database_manufacturers.go L%d-L%d: code and name of each newManufacture call. *)" % (calls[0][0], calls[-1][0]),
       "Definition man_table : list (Z * string) :=", "  ["]
for i, (n, c, s) in enumerate(calls):
    out.append('  (0x%06X, "%s"%%string)%s' % (c, s, ";" if i + 1 < len(calls) else ""))
out += ["  ].", ""]
open(DST, "w").write("\n".join(out))
