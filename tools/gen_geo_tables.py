#!/usr/bin/env python3
"""Reads /repo/geo_lookup/geo_magnetic_tables.hpp and writes rocq/theories/GeoTables.v
(the three lookup tables, entry by entry)."""
import re, sys
src = open('/repo/geo_lookup/geo_magnetic_tables.hpp').read()
out = ["(** Generated by tools/gen_geo_tables.py from geo_lookup/geo_magnetic_tables.hpp: the three", "    19 x 37 tables, copied entry by entry. *)", "From Coq Require Import ZArith List.", "Import ListNotations.", "Open Scope Z_scope.", ""]
lines = src.split('\n')
for m in re.finditer(r'static constexpr const int16_t (\w+)\[19\]\[37\] \{(.*?)\n\};', src, re.S):
    name, body = m.group(1), m.group(2)
    l0 = src[:m.start()].count('\n') + 1
    l1 = src[:m.end()].count('\n') + 1
    rows = re.findall(r'\{([^{}]*)\}', re.sub(r'//.*', '', body))
    data = [[int(x) for x in re.sub(r'/\*.*?\*/', '', r).split(',') if x.strip()] for r in rows]
    assert len(data) == 19 and all(len(r) == 37 for r in data), (name, len(data), [len(r) for r in data])
    out.append("(** geo_magnetic_tables.hpp l.%d-%d *)" % (l0, l1))
    out.append("Definition %s : list (list Z) := [" % name)
    out.append(";\n".join("  [" + "; ".join("(%d)" % x if x < 0 else str(x) for x in r) + "]" for r in data))
    out.append("].\n")
open(sys.argv[1] if len(sys.argv) > 1 else '/verif/rocq/theories/GeoTables.v', 'w').write("\n".join(out))
