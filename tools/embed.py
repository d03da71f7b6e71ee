#!/usr/bin/env python3
"""Embed /repo/neon_sim.h and /repo/neon_sim.cpp, line by line, as Coq string
literals: embed.py REPO THEORIES writes SourceH.v and SourceCpp.v.  The only
changes to a line: the text after "//" is dropped (coqdep reads words such as
Load in it as commands), and a double quote is doubled (Coq's escape)."""
import re, sys
repo, out = sys.argv[1], sys.argv[2]
for src, mod, name in (("neon_sim.h", "SourceH", "neon_sim_h"), ("neon_sim.cpp", "SourceCpp", "neon_sim_cpp")):
    data = open(f"{repo}/{src}", "rb").read()
    assert b"\r" not in data
    lines = data.split(b"\n")
    if lines[-1] == b"":
        lines.pop()
    assert not any(re.match(rb'[^"]*"[^"]*//', l) for l in lines)
    lines = [re.sub(rb"//.*", b"//", l) for l in lines]
    with open(f"{out}/{mod}.v", "wb") as f:
        f.write((f"(** The text of /repo/{src} (lines 1-{len(lines)}), one string per line, written by\n"
                 "    tools/embed.py; the text of // comments is dropped and a double quote is\n"
                 "    doubled, nothing else is changed. *)\n"
                 "From Coq Require Import String List.\nImport ListNotations.\nLocal Open Scope string_scope.\n\n"
                 f"Definition {name} : list string := [\n").encode())
        f.write(b";\n".join(b'"' + l.replace(b'"', b'""') + b'"' for l in lines))
        f.write(b"\n].\n")
