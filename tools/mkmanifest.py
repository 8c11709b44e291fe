#!/usr/bin/env python3
"""Collects the theorem names of rocq/theories/Props*.v into MANIFEST.json.
A property with a _partial or _refuted theorem is partial unless FULL says otherwise."""
import re,glob,json,os
root=os.path.join(os.path.dirname(os.path.abspath(__file__)),"..")
NOTE={
"C02":"The property is false of the code (C02_never_panics_refuted): a string default on char/bit/varchar/varbit without a length panics. Proved: it always returns otherwise, and that is the only way to panic.",
"C09":"False of the code (leading white space/comments inside quotes are dropped). Proved: exactly what is dropped, and verbatim otherwise.",
"C12":"That no written attribute is lost is C15.",
"C23":"Existence of schema-qualified items is false of the code (refuted); everything else proved.",
"C24":"False for table groups (refuted); proved for the five other kinds of settings lists.",
"C29":"First half proved in full; the converse is false for bigint i64::MAX (refuted), proved to be the only exception.",
"C34":"Both-sides claim for single-column many-to-many is false of the code (refuted); the exact rule is proved.",
"C81":"False of the code (refuted): ref_to goes by which end is written first. How to read the foreign keys off ref_to and ref_by is proved.",
"C41":"False of the code: such references always fail (proved). For tables declared with a schema the spellings are interchangeable in whole texts (proved).",
"C44":"Exact characterisation; C44_order_can_matter records that order matters in general.",
}
EXTRA={}
th={}
for f in sorted(glob.glob(root+"/rocq/theories/Props*.v")):
    for m in re.finditer(r"^Theorem (C(\d\d\d?)_\w+)",open(f).read(),re.M):
        th.setdefault("C"+m.group(2),[]).append(m.group(1))
claims=[]
for l in open(root+"/properties.jsonl"):
    p=json.loads(l)["id"]; t=th.get(p,[])
    if not t: st="partial"; note="in progress: no theorem yet"
    else:
        st="partial" if any(x.endswith(("_partial","_refuted")) for x in t) else "proved"
        note=NOTE.get(p,"")
    claims.append({"property":p,"status":st,"theorems":t,"note":note})
json.dump({"claims":claims},open(root+"/MANIFEST.json","w"),indent=1)
print(len(claims),[c["property"] for c in claims if not c["theorems"]],[c["property"] for c in claims if c["status"]=="partial"])
missing=set(th)-{c["property"] for c in claims}
assert not missing,missing
