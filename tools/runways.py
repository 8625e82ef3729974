#!/usr/bin/env python3
"""Writes rocq/theories/RunwayText.v: the airports of data/runways.csv and the numbers that
atmospheres.Runway reads from each of their rows."""
import csv, os, re, sys
from itertools import groupby
SRC = sys.argv[1] if len(sys.argv) > 1 else '/repo/ADRpy/data/runways.csv'
OUT = os.path.join(os.path.dirname(__file__), '..', 'rocq', 'theories', 'RunwayText.v')
COLUMNS = (3, 4, 11, 12, 17, 18)
CHUNK = 1000
rows = list(csv.reader(open(SRC, newline='')))[1:]
assert all(len(r) == 20 for r in rows)
out = ['''(** The rows of ADRpy/data/runways.csv after the header, in order: runs of rows with the same
    third field (the airport), and for each row its fields 3, 4, 11, 12, 17 and 18, joined by
    commas, without the commas at the end.  Written by tools/runways.py. *)
From Coq Require Import String List.
Import ListNotations.
Open Scope string_scope.
''']
airports = []
for code, g in groupby(rows, key=lambda r: r[2]):
    assert re.fullmatch(r'[-_A-Za-z0-9]+', code)
    lines = []
    for r in g:
        fields = [r[k] for k in COLUMNS]
        assert all(re.fullmatch(r'[-.0-9]*', f) for f in fields)
        lines.append('"%s"' % ','.join(fields).rstrip(','))
    airports.append('("%s", [%s])' % (code, '; '.join(lines)))
names = []
for k in range(0, len(airports), CHUNK):
    name = 'airports_%d' % (k // CHUNK)
    names.append(name)
    out.append('(* ADRpy/data/runways.csv *)\nDefinition %s : list (string * list string) := [\n  %s].\n'
               % (name, ';\n  '.join(airports[k:k + CHUNK])))
out.append('(* ADRpy/data/runways.csv *)\nDefinition shipped_airports : list (string * list string) :=\n  (%s)%%list.\n'
           % '\n   ++ '.join(names))
open(OUT, 'w', newline='\n').write('\n'.join(out))
