#!/usr/bin/env python3
"""Generates rocq/theories/ErrTables.v: enum ERR_* and errTbl of xbyak.h:182-298."""
import re
s = open('/repo/xbyak/xbyak.h').read()
i = s.index('ERR_NONE = 0')
names = re.findall(r'\bERR_[A-Z0-9_]+', s[i:s.index('};', i)])
i = s.index('static const char *errTbl[]')
texts = re.findall(r'"([^"]*)"', s[i:s.index('};', i)])
def lst(l): return '[' + ';\n  '.join('"%s"' % x for x in l) + ']%string'
open('/verif/rocq/theories/ErrTables.v', 'w').write(
    '(* GENERATED by tools/errtab.py from xbyak.h:182-298. *)\n'
    'From Coq Require Import List String.\nImport ListNotations.\n'
    '(* xbyak.h:182-238 enum; the value is the position *)\nDefinition errNames : list string := ' + lst(names) + '.\n'
    '(* xbyak.h:242-298 *)\nDefinition errTbl : list string := ' + lst(texts) + '.\n')
