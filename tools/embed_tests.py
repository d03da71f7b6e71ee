#!/usr/bin/env python3
"""Embed /repo/tests/test_*.cpp, line by line, as Coq string literals: embed_tests.py REPO THEORIES
writes SuiteSource.v.  The only changes to a line: the text after "//" is dropped, and a double
quote is doubled (Coq's escape)."""
import re, sys, glob, os
repo, out = sys.argv[1], sys.argv[2]
parts = []
for p in sorted(glob.glob(f"{repo}/tests/test_*.cpp")):
    data = open(p, "rb").read()
    assert b"\r" not in data
    lines = data.split(b"\n")
    if lines[-1] == b"":
        lines.pop()
    assert not any(re.match(rb'[^"]*"[^"]*//', l) for l in lines)
    lines = [re.sub(rb"//.*", b"//", l) for l in lines]
    assert all(max(l, default=0) < 128 for l in lines)
    parts.append(b'("tests/' + os.path.basename(p).encode() + b'", [\n' + b";\n".join(b'"' + l.replace(b'"', b'""') + b'"' for l in lines) + b"\n])")
with open(f"{out}/SuiteSource.v", "wb") as f:
    f.write(b"(** The text of /repo/tests/test_*.cpp, one string per line, written by tools/embed_tests.py; the text of // comments\n"
            b"    is dropped and a double quote is doubled, nothing else is changed. *)\n"
            b"From Coq Require Import String List.\nImport ListNotations.\nLocal Open Scope string_scope.\n\n"
            b"Definition test_sources : list (string * list string) := [\n")
    f.write(b";\n".join(parts))
    f.write(b"\n].\n")
