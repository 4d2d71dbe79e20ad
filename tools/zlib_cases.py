#!/usr/bin/env python3
"""Compare the decoder of Inflate.v with the interpreter's zlib: write a Coq file (argument) that
evaluates it on whole, damaged and random streams and lists the cases where they differ.
Compile it with `coqc -Q rocq/theories Verif`; the list printed should be empty."""
import random, sys, zlib
random.seed(5)
def pack(d, level, strategy, wbits):
    c = zlib.compressobj(level, zlib.DEFLATED, wbits, 8, strategy)
    return c.compress(d) + c.flush()
datas = [b"", b"a", b"a" * 10, b"abcabcabcabcabcabc" * 5, bytes(range(256)),
         bytes(random.choice(b"abcdef") for _ in range(800)), bytes(random.randrange(256) for _ in range(300)),
         b"The quick brown fox " * 30 + b"jumps" * 40]
cases = [pack(d, l, s, w) + random.choice([b"", b"xyz"])
         for d in datas for l, s, w in [(0, 0, 15), (1, 0, 15), (9, 0, 9), (6, 4, 15), (6, 2, 15)]]
whole = list(cases)
for _ in range(160):
    c = bytearray(random.choice(whole))
    if random.randrange(3) == 0:
        c = c[:random.randrange(len(c) + 1)]
    else:
        for _ in range(random.randrange(1, 3)):
            c[random.randrange(len(c))] ^= 1 << random.randrange(8)
    cases.append(bytes(c))
for _ in range(150):
    first = random.choice([3, 5, 4, 2, 0x0d, 0x05, random.randrange(256)])
    cases.append(b"\x78\x01" + bytes([first]) + bytes(random.randrange(256) for _ in range(random.randrange(60))))
rows = []
for c in cases:
    o, d = zlib.decompressobj(), b""
    try:
        for b in c:  # one byte at a time, to see all that is delivered
            if o.eof:
                break
            d += o.decompress(bytes([b]))
        e = "ZDone" if o.eof else "ZShort"
    except zlib.error:
        e = "ZBad"
    rows.append(f'("{c.hex()}", "{d.hex()}", {e})')
with open(sys.argv[1], "w") as f:
    f.write("From Coq Require Import ZArith List Bool String.\n"
            "From Verif Require Import Base File Inflate RepoTests RepoRun.\nImport ListNotations.\nOpen Scope string_scope.\n"
            "Definition zend_eqb a b := match a, b with ZDone, ZDone | ZShort, ZShort | ZBad, ZBad => true | _, _ => false end.\n"
            "Definition cases := [\n" + ";\n".join(rows) + "].\n"
            "Eval vm_compute in (List.length cases, filter (fun '(c, d, e) => let r := rfc_inflate (hex [c]) in\n"
            "  negb (list_eqb Byte.eqb (fst r) (hex [d]) && zend_eqb (snd r) e)) cases).\n")
