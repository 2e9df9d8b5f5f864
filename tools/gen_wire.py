#!/usr/bin/env python3
"""Prints the rows of wire_table in rocq/theories/WireTable.v.

Reads records.go and base.go as text; the transcription in Records.v is not used.
"""
import re

rec = open('/repo/records.go').read()
base = open('/repo/base.go').read()
KIND = {'string': 'FString', '*string': 'FStringPtr', '*uint64': 'FUint64Ptr', '*Time': 'FTimePtr'}


def fields(src, name):
    body = re.search(r'type %s struct \{(.*?)\n\}' % name, src, re.S).group(1)
    out = []
    for line in body.split('\n'):
        line = line.split('//')[0].strip()
        if not line or line == 'BaseRecord':
            continue
        n, t, tag = re.match(r'(\w+)\s+(\S+)\s+`vflow:"([^"]*)"`$', line).groups()
        parts = tag.split(',')
        out.append((int(parts[0]), n, KIND[t], 'required' in parts[1:]))
    return out


def show(l):
    lines, cur = [], ''
    for i, (c, n, t, _) in enumerate(l):
        piece = '(%d, "%s", %s)' % (c, n, t) + ('; ' if i < len(l) - 1 else '')
        if len(cur) + len(piece) > 84:
            lines.append(cur.rstrip())
            cur = ''
        cur += piece
    return '\n       '.join(lines + [cur])


b = fields(base, 'BaseRecord')
print('base:', b)
rows = []
for code, name in re.findall(r'MustRegisterRecord\((\d+), (\w+)\{\}\)', rec):
    l = fields(rec, name)
    assert not any(f[3] for f in l)
    rows.append('   (%s, "%s",\n      [%s])' % (code, name, show(l)))
print(';\n'.join(rows))
