#!/usr/bin/env python3
"""Writes rocq/theories/HandbookText.v: the lines of the MIL-HDBK-310 files of the code."""
import os, re, sys
SRC = sys.argv[1] if len(sys.argv) > 1 else '/repo/ADRpy/data/_MHDBK310'
OUT = os.path.join(os.path.dirname(__file__), '..', 'rocq', 'theories', 'HandbookText.v')
out = ['''(** The files in ADRpy/data/_MHDBK310 as lists of lines.  Written by tools/handbook.py. *)
From Coq Require Import String List.
Import ListNotations.
Open Scope string_scope.
''']
entries = []
for f in sorted(os.listdir(SRC)):
    text = open(os.path.join(SRC, f)).read()
    assert re.fullmatch(r'[-+.e0-9 \n]*', text)
    ident = 'lines_' + re.sub('[^A-Za-z0-9]', '_', f[:-5])
    out.append('(* ADRpy/data/_MHDBK310/%s *)\nDefinition %s : list string := [\n  %s].\n'
               % (f, ident, ';\n  '.join('"%s"' % l for l in text.split('\n'))))
    entries.append('("%s", %s)' % (f, ident))
out.append('(* ADRpy/data/_MHDBK310: files by name *)\nDefinition handbook_lines : list (string * list string) :=\n  [%s].\n'
           % ';\n   '.join(entries))
open(OUT, 'w', newline='\n').write('\n'.join(out))
