#!/usr/bin/env python3
"""Writes rocq/theories/PestText.v: the bytes of /repo/src/dbml.pest as a Coq string."""
import os
root=os.path.join(os.path.dirname(os.path.abspath(__file__)),"..")
t=open("/repo/src/dbml.pest").read()
assert all(ord(c)<128 for c in t)
open(root+"/rocq/theories/PestText.v","w").write('''(** * PestText: the text of src/dbml.pest (lines 1-%d), generated by tools/mkpest.py. *)

From Verif Require Import Str.

Definition dbml_pest : str := s
"%s".
''' % (t.count("\n"),t.replace('"','""')))
