#!/usr/bin/env python3
"""Writes rocq/theories/ShippedText.v: the lines of the engine data files of the code."""
import os, re, sys
SRC = sys.argv[1] if len(sys.argv) > 1 else '/repo/ADRpy/data/engine_data'
OUT = os.path.join(os.path.dirname(__file__), '..', 'rocq', 'theories', 'ShippedText.v')
out = ['''(** The engine data files in ADRpy/data/engine_data as lists of lines, without byte order
    mark.  Written by tools/shipped.py; the metadata files are left out. *)
From Coq Require Import String List.
Import ListNotations.
Open Scope string_scope.
''']
names = []
for d in ('Jet_CSVs', 'Turboprop_CSVs', 'Piston_CSVs', 'Electric_CSVs'):
    entries = []
    for f in sorted(os.listdir(os.path.join(SRC, d))):
        if f.startswith('_'):
            continue
        text = open(os.path.join(SRC, d, f), encoding='utf-8-sig').read()
        assert '"' not in text and text.isascii()
        ident = 'lines_' + re.sub('[^A-Za-z0-9]', '_', f[:-4])
        out.append('(* ADRpy/data/engine_data/%s/%s *)\nDefinition %s : list string := [\n  %s].\n'
                   % (d, f, ident, ';\n  '.join('"%s"' % l for l in text.split('\n'))))
        entries.append('("%s", %s)' % (f, ident))
    names.append('(* ADRpy/data/engine_data/%s: files by name *)\nDefinition %s : list (string * list string) :=\n  [%s].\n'
                 % (d, d.lower().replace('csvs', 'lines'), ';\n   '.join(entries)))
open(OUT, 'w', newline='\n').write('\n'.join(out + names))
