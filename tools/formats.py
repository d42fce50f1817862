#!/usr/bin/env python3
"""Print theories/M_AddressData.v: the entries of src/addressformatrc as a Coq list.
The patterns for postal codes are left out: no function modelled here reads them."""
import re, sys
src = sys.argv[1] if len(sys.argv) > 1 else '/repo/src/addressformatrc'
def lit(s):
    if all(32 <= ord(c) < 127 for c in s): return 'B "%s"' % s.replace('"', '""')
    out, run = [], ''
    for c in s:
        if 32 <= ord(c) < 127: run += c
        else:
            if run: out.append('B "%s"' % run); run = ''
            u = c.encode('utf-16-be')
            out.append('[' + '; '.join('%d%%N' % int.from_bytes(u[i:i+2], 'big') for i in range(0, len(u), 2)) + ']')
    if run: out.append('B "%s"' % run)
    return ' ++ '.join(out)
sections = []
for n, l in enumerate(open(src, encoding='utf-8'), 1):
    l = l.rstrip('\n')
    m = re.match(r'\[(.*)\]$', l)
    if m: sections.append((m[1], n, [])); continue
    if not l.strip() or l.startswith('#'): continue
    k, v = l.split('=', 1)
    if k != 'PostalCodeFormat': sections[-1][2].append((k, v.strip()))
print('(** The address formats that come with the library, src/addressformatrc, one entry per')
print('    country, in the order of the file.  Made by tools/formats.py.  The patterns for postal')
print('    codes are left out. *)')
print('From Verif Require Import Base.')
print('Import ListNotations.\n')
print('Definition shipped : list (ustring * list (ustring * ustring)) := [')
print(';\n'.join('  (B "%s", [%s]) (* addressformatrc:%d *)' % (c, '; '.join('(%s, %s)' % (lit(k), lit(v)) for k, v in es), n) for c, n, es in sections))
print("].")
