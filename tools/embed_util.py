#!/usr/bin/env python3
"""Embed /repo/tests/test_util.hpp, line by line, as Coq string literals: embed_util.py REPO THEORIES
writes UtilSource.v.  The only change to a line: a double quote is doubled (Coq's escape)."""
import sys
repo, out = sys.argv[1], sys.argv[2]
data = open(f"{repo}/tests/test_util.hpp", "rb").read()
assert b"\r" not in data and max(data) < 128
lines = data.split(b"\n")
if lines[-1] == b"":
    lines.pop()
with open(f"{out}/UtilSource.v", "wb") as f:
    f.write(b"(** The text of /repo/tests/test_util.hpp, one string per line, written by tools/embed_util.py; a double quote is\n"
            b"    doubled, nothing else is changed. *)\n"
            b"From Coq Require Import String List.\nImport ListNotations.\nLocal Open Scope string_scope.\n\n"
            b"Definition test_util_hpp : list string := [\n")
    f.write(b";\n".join(b'"' + l.replace(b'"', b'""') + b'"' for l in lines))
    f.write(b"\n].\n")
