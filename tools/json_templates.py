"""Turns the JSON templates of the repository's serde tests into rocq/theories/JsonSamples.v.

usage: json_templates.py /repo > JsonSamples.v
"""
import json
import re
import struct
import sys


class Obj(list):
    """An object as a list of pairs: order is significant."""


def string(s):
    if all(32 <= ord(c) < 127 for c in s):
        return 's2z "%s"' % s.replace('"', '""')
    return '[%s]' % '; '.join(str(ord(c)) for c in s)


def term(v):
    if v is None:
        return 'JNull'
    if v is True or v is False:
        return 'JBool %s' % str(v).lower()
    if isinstance(v, int):
        return 'JInt (%d)' % v
    if isinstance(v, float):
        return 'JFloat %d' % struct.unpack('<Q', struct.pack('<d', v))[0]
    if isinstance(v, str):
        return 'JStr (%s)' % string(v)
    if isinstance(v, Obj):
        return 'JObj [%s]' % '; '.join('(%s, %s)' % (string(k), term(x)) for k, x in v)
    return 'JArr [%s]' % '; '.join(term(x) for x in v)


def fill(text, indent, width=110):
    out, line = [], ' ' * indent
    for word in re.findall(r'(?:"(?:[^"]|"")*"|[^\s"])+', text):
        if len(line) + len(word) + 1 > width and line.strip():
            out.append(line)
            line = ' ' * (indent + 2)
        line += (' ' if line.strip() else '') + word
    return '\n'.join(out + [line])


def main():
    name = 'tests/serde_tests/serde_json_template.rs'
    src = open(sys.argv[1] + '/' + name).read()
    items = []
    for m in re.finditer(r'r#"(\{.*?)"#', src, re.S):
        v = json.loads(m.group(1), object_pairs_hook=Obj)
        line = src[:m.start()].count('\n') + 1
        items.append((line, v))
    print('(** The JSON templates of %s.' % name)
    print('    Generated by tools/json_templates.py; the numbers are lines of that file. *)')
    print('From Coq Require Import ZArith List Bool String.')
    print('From Verif Require Import Base Str Types Versions Text Props File Guid Json.')
    print('Import ListNotations.\nOpen Scope Z_scope.\n')
    print('Definition templates : list (Z * json) :=\n  [')
    print(';\n'.join(fill('(%d, %s)' % (l, term(v)), 4) for l, v in items))
    print('  ].')


main()
