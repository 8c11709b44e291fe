#!/usr/bin/env python3
"""Generates rocq/theories/Golden.v from /repo/tests: the repository's own expected outputs."""
import os
R="/repo/tests"
out=["(** * Golden: the model against the repository's own expectations (generated by tools/mkgolden.py).",
"",
"    tests/mod.rs: [format!(\"{:#?}\", parse_dbml_unchecked(input))] equals the file in tests/out;",
"    every input in tests/dbml/validator is rejected by [parse_dbml]; tests/dbml/checked is accepted.",
"    These are tests of the model, not theorems about the code. *)","",
"From Verif Require Import DebugFmt.","Set Warnings \"-abstract-large-number\".","",
"Fixpoint same (a b : str) : bool :=",
"  match a, b with [], [] => true | x :: a', y :: b' => if N.eqb x y then same a' b' else false | _, _ => false end.",
"Definition prints (i o : str) : bool := match debug_unchecked i with Some o' => same o o' | None => false end.",""]
def q(t):
    parts=[];cur=""
    for c in t:
        if ord(c)>127:
            if cur: parts.append(cur)
            parts.append(ord(c)); cur=""
        else:
            cur+=c
            if len(cur)>=2000: parts.append(cur); cur=""
    if cur: parts.append(cur)
    return "("+" ++\n ".join(("[%d]"%x if isinstance(x,int) else 's "'+x.replace('"','""')+'"') for x in parts)+")"
def name(d,f): return (d+"_"+f).replace(".in.dbml","").replace(".dbml","").replace(".out","").replace("/","_").replace("dbml_","")
skipped=[]
MAX=int(os.environ.get("MAX","200000"))
for d in ["","mysql_importer","mssql_importer","postgres_importer"]:
    p=os.path.join(R,"dbml",d)
    for f in sorted(os.listdir(p)):
        if not f.endswith(".dbml") or not os.path.isfile(os.path.join(p,f)): continue
        i=open(os.path.join(p,f),newline="").read()
        o=open(os.path.join(R,"out",d,f[:-5]+".ron"),newline="").read()
        if len(o)>MAX: skipped.append(f); continue
        n="golden_"+name(d,f)
        out+=["(** tests/dbml/%s *)"%os.path.join(d,f),"Example %s : prints\n%s\n%s = true."%(n,q(i),q(o)),"Proof. vm_compute. reflexivity. Qed.",""]
for d,v in [("validator",1),("checked",0)]:
    p=os.path.join(R,"dbml",d)
    for f in sorted(os.listdir(p)):
        i=open(os.path.join(p,f),newline="").read()
        out+=["(** tests/dbml/%s *)"%os.path.join(d,f),"Example %s : checked_tag %s = %d."%("golden_"+name(d,f),q(i),v),"Proof. vm_compute. reflexivity. Qed.",""]
open(os.path.join(os.path.dirname(__file__),"..","rocq","theories","Golden.v"),"w").write("\n".join(out))
print("skipped",skipped)
