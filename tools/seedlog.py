#!/usr/bin/env python3
"""Writes seeded/LOG.jsonl from the results of mutate.py."""
import json

# theorems added or strengthened because a wrong program passed
TIGHTENED = {
    "cr-scanraw": ["C112_text_scan"],
    "c-format": ["C70_accepted", "C70_refused"],
    "c-rule": ["C71_details", "C71_rule_determined"],
    "c-read-req": ["C71_details"],
    "n-state": ["C82_keeps"],
    "f-stop-err": ["C85_stop_reports"],
    "t-mstop": ["C85_stop_reports"],
    "s-run-last": ["C92_text6"],
    "s-nil": ["C92_nil"],
    "t-close": ["C93_socket"],
    "au-rune_count": ["C97_characters"],
    "j-html": ["C98_one_line"],
    "au-endEscape": ["C97_escape_refuted"],
    "t-if": ["C93_socket"],
    "au-hex_pairs": ["C92_other"],
    "au-v6_loop": ["C92_embedded"],
}
# edits that do not change what the program does for any input
SAME = {"db-add", "r-search", "p-order", "c-lower", "man-add", "s-run-one", "w-lastline", "w-single", "li-super", "li-np", "au-bound_in", "au-no_cell", "au-a_setPropertyMap", "au-NewSocket", "au-no_shape"}

# why a wrong program passed
PASSED = {"l-uni": "passed: no event of the network model sends a message to one address by itself (responses go through reply_packets); sending to one address is in Exchange.v, C60"}

out = []
for line in open("/tmp/mut/result.jsonl"):
    r = json.loads(line)
    if r["outcome"].startswith(("does not compile", "bad edit")): continue
    e = {"seed": r["name"], "definition": r["file"] + ": " + r["definition"],
         "edit": r["old"] + "  =>  " + r["new"], "claim": r["claim"],
         "failed": r["failed"], "tightened": TIGHTENED.get(r["name"], []) if not r["failed"] else []}
    if r["name"] in SAME: e["note"] = "the edit does not change the results of the program; a failure here is one of the proof script only"
    elif not r["failed"] and not e["tightened"]: e["note"] = PASSED.get(r["name"], "passed: " + r["outcome"])
    out.append(json.dumps(e))
open("/verif/seeded/LOG.jsonl", "w").write("".join(x + "\n" for x in out))
print(len(out))
