#!/usr/bin/env python3
"""Build seeded/LOG.jsonl from the result files of seeded/run.py (in the given order).
usage: mklog.py results.jsonl ..."""
import json, os, sys
HERE = os.path.dirname(os.path.abspath(__file__))
# what was done about the seeded bugs that no theorem of the claim caught
TIGHTENED = {
 "M033": ["C68_overflow_side"], "M034": ["C68_overflow_side"], "M035": ["C68_overflow_side"],
 "M040": ["C67_shl_values"], "M042": ["C69_by_overflow"],
 "M057": ["C70_type", "C70_shifts"], "M059": ["C38_automatic_sub_partial", "C71_narrowest_type"],
 "M080": ["C24_automatic_partial"],
 "M132": ["C47_cpp_host_widths", "C90_result_type_partial"], "M137": ["C78_signedness"],
 "M151": ["C87_no_reading_with_trap"], "M219": ["C88_reads", "C88_writes"],
}
# theorems tightened because the edited program, tried by hand, was not caught
BEFORE = {
 "M339": ["C98_order"], "M344": ["C06_every_case"], "M345": ["C06_every_case"],
 "M346": ["C61_exact_ranges", "C61_shifts"], "M347": ["C61_exact_ranges", "C61_shifts"],
 "M348": ["C57_comparison_policies"], "M371": ["C75_members"], "M372": ["C96_built_in_compiles"],
}
NOTE = {
 "M167": "Equivalent: the edited branch of the motor program is never reached.",
 "M168": "Equivalent: the edited branch of the motor program is never reached.",
 "M283": "The edited program is what was meant: the claim is false of the code and its refutation failed.",
 "M298": "The edited program is what was meant: the claim is false of the code and its refutation failed.",
 "M056": "C21 stays true of the edited program (its result type is another one, and exact or an exception): the claim broken is C38.",
 "M094": "Equivalent: the edited branch is never compiled under a policy that traps.",
 "M095": "Equivalent: the edited branch is never compiled under a policy that traps.",
 "M116": "Equivalent: intersect answers true for all nonempty intervals (C20), so the edited shortcut of == is dead code.",
 "M124": "C30 stays true of the edited program; the claim broken is C12 (C12_signed_range_narrowest failed).",
 "M129": "The claim broken is C46 (C46_literal_conversion failed), not C59.",
 "M327": "The claim broken is C76 (C76_range_value failed), not C75, which does not mention intervals.",
 "M132": "C40 stays true of the edited program where it is proved; the claims broken are C47 and C90.",
 "M137": "C38 stays true of the edited program; the claim broken is C78.",
 "M151": "C44 says nothing about policies that trap; the claim broken is C87.",
 "M060": "C47 stays true of the edited program; the claim broken is C40.",
}
out = []
seen = {}
for p in sys.argv[1:]:
    for l in open(p):
        r = json.loads(l)
        if "failed" not in r: continue  # the edited model does not compile
        k = (r["id"], tuple(r["breaks"]))
        rec = {"id": r["id"], "definition": r["file"] + ": " + r["definition"], "edit": r["edit"],
               "claim_broken": r["breaks"], "theorems_failed": r["failed"],
               "caught": r["verdict"] == "caught", "theorems_tightened": []}
        if not rec["caught"]:
            rec["theorems_tightened"] = TIGHTENED.get(r["id"], [])
            if r["id"] in NOTE: rec["note"] = NOTE[r["id"]]
        elif r["id"] in BEFORE: rec["theorems_tightened"] = BEFORE[r["id"]]
        elif r["id"] in seen: rec["note"] = "second attempt, after the change recorded in the first"
        seen[r["id"]] = 1
        out.append((len(out), rec))
out.sort(key=lambda x: (x[1]["id"], x[0]))
with open(os.path.join(HERE, "..", "seeded", "LOG.jsonl"), "w") as f:
    for _, r in out: f.write(json.dumps(r) + "\n")
print(len(out), "lines,", sum(not r["caught"] for _, r in out), "not caught")
