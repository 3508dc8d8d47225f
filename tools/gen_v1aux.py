#!/usr/bin/env python3
"""Transcribe two more columns of the V1 instruction tables of /repo/sim into
rocq/theories/V1Aux.v: the semantic functions of every opcode of the
group CoralNPUInst (of the instruction and its child) and the disassembly text of every opcode that has an
encoding, as written in the .isa files."""
import re, sys, io, contextlib
sys.argv = [sys.argv[0], '/dev/null'] + sys.argv[1:]
with contextlib.redirect_stdout(io.StringIO()):
    exec(open('/verif/tools/gen_decode.py').read())
OUT = sys.argv[2] if len(sys.argv) > 2 else '/verif/rocq/theories/V1Aux.v'

def disasm():
    out = {}
    for f in ISA:
        txt = open(R + f'coralnpu_{f}.isa').read()
        txt = re.sub(r'^[ \t]*//.*$', '', txt, flags=re.M)
        txt = re.sub(r';[ \t]*//.*$', ';', txt, flags=re.M)
        for m in re.finditer(r'^    (\w+)\{([^}]*)\}(.*?);[ \t]*$', txt, re.S | re.M):
            d = re.findall(r'disasm:\s*((?:"[^"]*"\s*,?\s*)+)', m.group(3))
            out[m.group(1)] = re.findall(r'"([^"]*)"', d[0]) if d else []
    return out

def fn(s):
    s = re.sub(r'\s+', '', re.sub(r'/\*.*?\*/', '', s))
    m = re.fullmatch(r'(?:absl::bind_front\()?&([\w:<>]+)((?:,\w+)*)\)?', s)
    assert m, s
    f = m.group(1)
    for p, q in (('mpact::sim::riscv::', ''), ('coralnpu::sim::', 'coralnpu::')):
        if f.startswith(p): f = q + f[len(p):]
    args = [str(int({'true': 1, 'false': 0}.get(x, x))) for x in m.group(2).split(',') if x]
    return f'Fn "{f}" [' + '; '.join(args) + ']'

ops, dis, seen, grp = opcodes(), disasm(), [], {}
for name, g, *_ in encodings():
    assert name not in seen
    seen.append(name)
    grp[name] = g
with open(OUT, 'w') as f:
    f.write('(** * More columns of the V1 instruction tables\n\n    Generated by /verif/tools/gen_v1aux.py; do not edit.  Keyed by opcode, with the\n'
            '    lines of /repo/sim they come from. *)\nFrom Verif Require Import V2DecTypes.\nFrom Coq Require Import String List.\n'
            'Import ListNotations.\nOpen Scope string_scope.\nOpen Scope Z_scope.\n\n'
            '(** Semantic functions of the instruction and of its child. *)\nDefinition v1_sems : list (string * list fn2) := [\n')
    rows = []
    for n in seen:
        o, sems, fnm, ln = ops[n]
        if grp[n] == 'GInst':
            rows.append(f'  (* {fnm}:{ln} *) ("{n}", [{"; ".join(fn(x) for x in sems)}])')
    f.write(';\n'.join(rows) + '\n].\n\n(** Disassembly text: mnemonic, operands. *)\nDefinition v1_disasm : list (string * list string) := [\n')
    f.write(';\n'.join(f'  (* {ops[n][2]}:{ops[n][3]} *) ("{n}", [{"; ".join(chr(34) + x + chr(34) for x in dis[n])}])' for n in seen) + '\n].\n')
print(len(rows), 'semantics,', len(seen), 'texts')
