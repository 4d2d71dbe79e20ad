"""Turns the smaller save files of the repository's tests, with the JSON text that the tests
state for some of them, into rocq/theories/RepoFiles.v.

usage: repo_files.py /repo > RepoFiles.v
"""
import re
import sys
import zlib

root = sys.argv[1]
FILES = [  # name, file, source of the hints, source of the JSON text
    ('regression_01', 'regression_01.bin', None, 'regression'),
    ('options', 'Options.sav', None, None),
    ('tagcontainer', 'tagcontainer.sav', None, 'tagcontainer'),
    ('delegate', 'Delegate.sav', None, None),
    ('assert_failed', 'assert_failed.sav', None, None),
    ('slot1', 'Slot1.sav', None, 'slot1'),
    ('saveslot_03', 'SaveSlot_03.sav', 'saveslot3', 'saveslot3'),
    ('package_version_525', 'package_version_525.sav', None, None),
    ('vector2d', 'vector2d.sav', None, 'vector2d'),
    ('profile_0', 'Profile_0.sav', 'profile0', 'profile0'),
]


def common(name):
    return open(f'{root}/tests/common/{name}.rs').read()


print('(** Save files of the repository (resources/test), in hexadecimal, with the hints and the JSON text')
print('    that the tests state for them (tests/common).  Generated by tools/repo_files.py.')
print('    No proofs in this file. *)')
print('From Coq Require Import ZArith List String.')
print('From Verif Require Import Base Str Samples.')
print('Import ListNotations.\nLocal Open Scope string_scope.\n')
for name, file, hints, text in FILES:
    b = open(f'{root}/resources/test/{file}', 'rb').read()
    print(f'(** resources/test/{file}, {len(b)} bytes. *)')
    print(f'Definition {name}_hex : list string :=')
    h = b.hex()
    print('  [%s].' % ';\n   '.join('"%s"' % h[i:i + 120] for i in range(0, len(h), 120)))
    if hints:
        src = common(hints)
        i = src.index('fn hints()')
        src = src[i:src.index('\n}', i)]
        l = re.findall(r'"([^"]*)"', src)
        assert len(l) % 2 == 0 and l
        print(f'(** tests/common/{hints}.rs, [hints]. *)')
        e = 'no_hints'
        for k, v in reversed(list(zip(l[::2], l[1::2]))):
            e = f'hint_at "{k}" "{v}"\n  ({e})'
        print(f'Definition {name}_hints : str -> option str :=\n  {e}.')
    if text:
        src = common(text)
        s = re.search(r'r#"(\{.*?)"#', src, re.S)[1]
        assert all(c == '\n' or 32 <= ord(c) < 127 for c in s), text
        print(f'(** tests/common/{text}.rs; one line each. *)')
        print(f'Definition {name}_json : list string :=')
        print('  [%s].' % ';\n   '.join('"%s"' % x.replace('"', '""') for x in s.split('\n')))
    if name in ('options', 'delegate'):
        l = re.findall(r'Guid::from_str\("([^"]*)"\).unwrap\(\),\s*(\d+),', common(name))
        print(f'(** tests/common/{name}.rs, the custom versions of [expected]. *)')
        print(f'Definition {name}_versions : list (string * Z) :=')
        print('  [%s]%%Z.' % ';\n   '.join('("%s", %s)' % x for x in l))
    print()
b = open(f'{root}/resources/test/palworld_zlib.sav', 'rb').read()
for name, d in (('packed', b), ('unpacked', zlib.decompress(b[12:]))):
    print(f'(** resources/test/palworld_zlib.sav, {name}: {len(d)} bytes. *)')
    print(f'Definition palworld_{name} : list string :=')
    h = d.hex()
    print('  [%s].' % ';\n   '.join('"%s"' % h[i:i + 120] for i in range(0, len(h), 120)))
