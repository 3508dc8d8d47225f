#!/usr/bin/env python3
"""Transcribe the instruction tables of /repo/sim into rocq/theories/DecodeTable.v.

Reads the six coralnpu_*.bin_fmt encoding files and the five coralnpu_*.isa
files and writes one row per encoding: name, group, format, constraints (field
names and values as written), source and destination operands and the semantic
function with its bound arguments.  No field is resolved to bit positions here;
that is done in Coq (DecodeTypes.v)."""
import re, sys
R = '/repo/sim/'
OUT = sys.argv[1] if len(sys.argv) > 1 else '/verif/rocq/theories/DecodeTable.v'
BIN = ['base', 'arith', 'conv', 'memory', 'mul', 'shift']
ISA = ['base', 'arith', 'shift', 'memory', 'mul']
GRP = {'CoralNPUInst': 'GInst', 'CoralNPUVectorArithInst': 'GArith', 'CoralNPUVectorConvInst': 'GConv',
       'CoralNPUVectorMemoryInst': 'GMemory', 'CoralNPUVectorMulInst': 'GMul', 'CoralNPUVectorShiftInst': 'GShift'}
FMT = {'Inst32Format': 'FInst32', 'RType': 'FR', 'IType': 'FI', 'SType': 'FS', 'BType': 'FB', 'UType': 'FU',
       'JType': 'FJ', 'Fence': 'FFence', 'CoralNPUSystemType': 'FSys', 'CoralNPUV2ArgsType': 'FV2',
       'CoralNPUV3ArgsType': 'FV3'}

def num(s):
    s = s.replace("'", '').strip()
    return int(s, 2 if s.startswith('0b') else 16 if s.startswith('0x') else 10)

def encodings():
    for f in BIN:
        fn = f'coralnpu_{f}.bin_fmt'
        g, acc, start = None, '', 0
        for i, l in enumerate(open(R + fn).read().split('\n'), 1):
            l = re.sub(r'//.*', '', l).strip()
            m = re.match(r'instruction group (\w+)\[32\]\s*:\s*(\w+)', l)
            if m: g, acc = m.group(1), ''; continue
            if l.startswith('}'): g = None; continue
            if g is None or not l: continue
            if not acc: start = i
            acc += ' ' + l
            if acc.endswith(';'):
                m = re.fullmatch(r'\s*(\w+)\s*:\s*(\w+)\s*:\s*(.*);', acc)
                assert m, acc
                cons = []
                for c in m.group(3).split(','):
                    mm = re.fullmatch(r"\s*(\w+)\s*(==|!=)\s*([0-9a-fxb']+)\s*", c)
                    assert mm, (fn, i, c)
                    cons.append((mm.group(1), mm.group(2) == '==', num(mm.group(3))))
                yield m.group(1), GRP[g], FMT[m.group(2)], cons, fn, start
                acc = ''

def opcodes():
    out = {}
    for f in ISA:
        fn = f'coralnpu_{f}.isa'
        txt = open(R + fn).read()
        txt = re.sub(r'^[ \t]*//.*$', '', txt, flags=re.M)
        txt = re.sub(r';[ \t]*//.*$', ';', txt, flags=re.M)
        for m in re.finditer(r'^    (\w+)\{([^}]*)\}(.*?);[ \t]*$', txt, re.S | re.M):
            name, ops, rest = m.groups()
            sem = re.findall(r'semfunc:\s*((?:"[^"]*"\s*,?\s*)+)', rest)
            sems = re.findall(r'"([^"]*)"', sem[0]) if sem else []
            assert name not in out, name
            out[name] = (re.sub(r'\s+', '', ops), sems, fn, txt[:m.start()].count('\n') + 1)
    return out

SRC = {'rs1': 'SRs1', 'rs2': 'SRs2', 'vs1': 'SVs1', 'vs2': 'SVs2', 'vs3': 'SVs3', 'vd': 'SVd'}
DST = {'rd': 'DRd', 'vd': 'DVd', 'vs1': 'DVs1', 'csr': 'DCsr', 'next_pc': 'DNextPc'}
def operands(ops):
    """(pred : sources : destinations), possibly two parenthesised slots."""
    parts = re.findall(r'\(([^)]*)\)', ops) or [ops]
    src, dst, child = [], [], []
    for k, p in enumerate(parts):
        s = (p.split(':') + ['', '', ''])[:3]
        assert s[0] == ''
        a = [x for x in s[1].split(',') if x]
        d = [x for x in s[2].split(',') if x]
        if k == 0: src, dst = a, d
        else:
            assert not a
            child = d
    s = '; '.join(SRC.get(x, f'SImm "{x}"') for x in src)
    return f'[{s}]', '[' + '; '.join(DST[x] for x in dst) + ']', '[' + '; '.join(DST[x] for x in child) + ']'

TY = {'int8_t': 'I8', 'int16_t': 'I16', 'int32_t': 'I32', 'uint8_t': 'U8', 'uint16_t': 'U16', 'uint32_t': 'U32'}
EL = {'VAdd': 'OAdd', 'VSub': 'OSub', 'VRSub': 'ORsub', 'VEq': 'OEq', 'VNe': 'ONe', 'VLt': 'OLt', 'VLe': 'OLe',
      'VGt': 'OGt', 'VGe': 'OGe', 'VAbsd': 'OAbsd', 'VMax': 'OMax', 'VMin': 'OMin', 'VAdd3': 'OAdd3',
      'VAdds': 'OAdds', 'VAddsu': 'OAddsu', 'VSubs': 'OSubs', 'VSubsu': 'OSubsu', 'VAnd': 'OAnd', 'VOr': 'OOr',
      'VXor': 'OXor', 'VRev': 'ORev', 'VRor': 'ORor', 'VSll': 'OSll', 'VSra': 'OSra', 'VSrl': 'OSrl',
      'VMul': 'OMul', 'VMuls': 'OMuls', 'VMacc': 'OMacc', 'VMadd': 'OMadd', 'VSel': 'OSel'}
UN = {'VNot': 'UNot', 'VClb': 'UClb', 'VClz': 'UClz', 'VCpop': 'UCpop', 'VMv': 'UMv'}
PERM = {'VEvn': 'PEvn', 'VOdd': 'POdd', 'VEvnodd': 'PEvnodd', 'VZip': 'PZip', 'VMvp': 'PMvp'}
WID = {'VAddw': 'VWiden WAdd', 'VSubw': 'VWiden WSub', 'VMulw': 'VWiden WMul', 'VAcc': 'VAcc'}

def semantic(sems):
    """The bound arguments are positional; see coralnpu_vector_*.h for the
    parameter order.  Comments in the strings are ignored."""
    s = re.sub(r'/\*.*?\*/', '', sems[0])
    s = re.sub(r'\s+', '', s)
    m = re.fullmatch(r'(?:absl::bind_front\()?&(?:coralnpu::sim::)?CoralNPU(\w+)(?:<([\w,]+)>)?((?:,\w+)*)\)?', s)
    if not m or m.group(1) in ('LogInstruction', 'NopInstruction', 'IMpause', 'Ebreak') or '::RV' in s:
        return f'SmScalar "{s}"'
    f = m.group(1)
    T = [TY[t] for t in (m.group(2) or '').split(',') if t]
    a = [x for x in m.group(3).split(',') if x]
    if f in EL: sc, st = a; (t,) = T; return f'SmVec (VEl {EL[f]} {t}) {sc} {st}'
    if f in ('VHadd', 'VHsub', 'VMulh'):
        sc, st, r = a; (t,) = T; return f'SmVec (VEl (O{f[1:]} {r}) {t}) {sc} {st}'
    if f == 'VDmulh': sc, st, r, rn = a; (t,) = T; return f'SmVec (VEl (ODmulh {r} {rn}) {t}) {sc} {st}'
    if f == 'VShift': r, sc, st = a; (t,) = T; return f'SmVec (VEl (OShift {r}) {t}) {sc} {st}'
    if f == 'VSrans': r, sc, st = a; t, u = T; return f'SmVec (VNarrow {r} {t} {u}) {sc} {st}'
    if f in WID: sc, st = a; t, u = T; return f'SmVec ({WID[f]} {t} {u}) {sc} {st}'
    if f in ('VPadd', 'VPsub'):
        (st,) = a; t, u = T; return f'SmVec (VPair {"true" if f == "VPsub" else "false"} {t} {u}) false {st}'
    if f in UN: (st,) = a; (t,) = T; return f'SmVec (VUn {UN[f]} {t}) false {st}'
    if f in PERM: sc, st = a; (t,) = T; return f'SmVec (VPerm {PERM[f]} {t}) {sc} {st}'
    if f in ('VSlidevn', 'VSlidevp'):
        k, st = a; (t,) = T; return f'SmVec (VPerm (PSlide{f[-1]} false {k}) {t}) false {st}'
    if f in ('VSlidehn', 'VSlidehp'):
        (k,) = a; (t,) = T; return f'SmVec (VPerm (PSlide{f[-1]} true {k}) {t}) false true'
    if f == 'VLd':
        ln, sd, st = a; (t,) = T
        c = re.sub(r'\s+', '', re.sub(r'/\*.*?\*/', '', sems[1]))
        cm = re.fullmatch(r'absl::bind_front\(&coralnpu::sim::CoralNPUVLdRegWrite<(\w+)>,(\w+)\)', c)
        return f'SmLd {t} {ln} {sd} {st} {TY[cm.group(1)]} {cm.group(2)}'
    if f == 'VSt': ln, sd, st = a; (t,) = T; return f'SmSt {t} {ln} {sd} {st}'
    if f == 'VStQ': (st,) = a; (t,) = T; return f'SmStq {t} {st}'
    if f == 'VDup': (st,) = a; (t,) = T; return f'SmDup {t} {st}'
    if f == 'GetVl': st, r1, r2 = a; (t,) = T; return f'SmGetVl {t} {st} {r1} {r2}'
    if f == 'VConv': assert not a; return 'SmConv'
    if f == 'VDwconv': return f'SmDwconv {a[0]}'
    if f == 'AcSet': return f'SmAcSet {a[0]}'
    if f == 'VcGet': return 'SmVcGet'
    if f == 'ADwInit': return 'SmADwInit'
    return f'SmScalar "{s}"'

def main():
    ops = opcodes()
    rows = {}
    for name, g, fmt, cons, fn, ln in encodings():
        o, sems, ifn, iln = ops[name]
        src, dst, child = operands(o)
        cs = '; '.join(f'{"Ceq" if eq else "Cne"} "{f}" {v}' for f, eq, v in cons)
        row = (f'  (* {fn}:{ln} {ifn}:{iln} *)\n  E "{name}" {g} {fmt} [{cs}]\n'
               f'    {src} {dst} {child} ({semantic(sems)})')
        rows.setdefault(g, []).append(row)
    with open(OUT, 'w') as f:
        f.write('(** * The instruction tables\n\n    Generated by /verif/tools/gen_decode.py; do not edit.  One row per\n'
                '    encoding, with the lines of /repo/sim it comes from. *)\n'
                'From Verif Require Import DecodeTypes.\nFrom Coq Require Import String List.\nImport ListNotations.\n'
                'Open Scope string_scope.\n')
        for g in GRP.values():
            f.write(f'\nDefinition tab_{g} : list entry := [\n' + ';\n'.join(rows[g]) + '\n].\n')
    enc = {n for n, *_ in encodings()}
    print(sum(map(len, rows.values())), 'rows; opcodes without encoding:', [n for n in ops if n not in enc])
main()
