#!/usr/bin/env python3
"""Generates rocq/theories/DecompTable.v: the canonical decompositions (Unicode, via Python's unicodedata) of the runes
that occur in the fold table (AsciiTable.v).  usage: gen_decomp.py AsciiTable.v > DecompTable.v"""
import re, sys, unicodedata
s = open(sys.argv[1]).read()
s = re.sub(r'\(\*.*?\*\)', '', s[s.index('fold_arms'):], flags=re.S)
rs = sorted(int(x) for m in re.finditer(r'\(\[([^\]]*)\],\s*\[[^\]]*\],\s*(?:true|false)\)', s) for x in m.group(1).split(';'))
d = [(r, [ord(c) for c in unicodedata.normalize('NFD', chr(r))]) for r in rs]
d = [(r, l) for r, l in d if len(l) > 1]
print('''(** * DecompTable: canonical decompositions of letters with diacritics. GENERATED by tools/gen_decomp.py from the Unicode
    character database (version %s): every rune of the fold table (AsciiTable.v) that has one, fully decomposed. *)

From Verif Require Import Base.
Local Open Scope N_scope.

Definition decompositions : list (N * list N) :=
  [''' % unicodedata.unidata_version)
print(';\n'.join('   ' + '; '.join('(%d, [%s])' % (r, '; '.join(map(str, l))) for r, l in d[i:i+6]) for i in range(0, len(d), 6)))
print('  ].')
