#!/usr/bin/env python3
"""Writes rocq/theories/VecIsa.v: the vector instructions whose execution is specified (name, row of IsaRows.v, meaning)."""
import re, os
root = os.path.join(os.path.dirname(os.path.abspath(__file__)), '..', 'rocq', 'theories')
tabs = open(os.path.join(root, 'VexTables.v')).read()
names = {}
for m in re.finditer(r'mkEntry "([^"]+)" \[([^\]]*)\] \(.*?\) (r_\w+) (Vl\w+)', tabs):
    names.setdefault(m.group(1), (m.group(2), m.group(3), m.group(4)))
out = []
def add(name, meaning):
    if name not in names:
        raise SystemExit('no entry ' + name)
    out.append((name, names[name][1], meaning))
ES = {'b': 8, 'w': 16, 'd': 32, 'q': 64, 'ps': 32, 'pd': 64, 'ph': 16, 'ss': 32, 'sd': 64, 'sh': 16}
def kind(sfx): return 'MScalar' if sfx in ('ss', 'sd', 'sh') else 'MLane'
for op in ['add', 'sub', 'mul', 'div', 'min', 'max']:
    for s in ['ps', 'pd', 'ph', 'ss', 'sd', 'sh']:
        add(f'v{op}{s}/xoo', f'{kind(s)} (Fp F{op.capitalize()}) {ES[s]}')
for op, c in [('and', 'And'), ('andn', 'Andn'), ('or', 'Or'), ('xor', 'Xor')]:
    for s in ['ps', 'pd']:
        add(f'v{op}{s}/xoo', f'MLane {c} {ES[s]}')
    add(f'vp{op}/xxo', f'MLane {c} 64')
    for s in 'dq':
        add(f'vp{op}{s}/xxo', f'MLane {c} {ES[s]}')
for op in ['madd', 'msub', 'nmadd', 'nmsub']:
    for o in ['132', '213', '231']:
        for s in ['ps', 'pd', 'ph', 'ss', 'sd', 'sh']:
            add(f'vf{op}{o}{s}/xxo', f'{kind(s)} (Fp{o} F{op.capitalize()}) {ES[s]}')
for s in ['ss', 'sd', 'sh']:
    add(f'vsqrt{s}/xxo', f'MScalar (Fp2 FSqrt) {ES[s]}')
    add(f'vgetexp{s}/xxo', f'MScalar (Fp2 FGetexp) {ES[s]}')
    add(f'vgetmant{s}/xxoi', f'MScalar (Fp2I FGetmant) {ES[s]}')
    add(f'vreduce{s}/xxoi', f'MScalar (Fp2I FReduce) {ES[s]}')
    add(f'vrndscale{s}/xxoi', f'MScalar (Fp2I FRndscale) {ES[s]}')
for s in ['ps', 'pd', 'ph']:
    add(f'vsqrt{s}/xo', f'MLane (Fp FSqrt) {ES[s]}')
    add(f'vgetexp{s}/xo', f'MLane (Fp FGetexp) {ES[s]}')
    add(f'vgetmant{s}/xoi', f'MLane (FpI FGetmant) {ES[s]}')
    add(f'vreduce{s}/xoi', f'MLane (FpI FReduce) {ES[s]}')
    add(f'vrndscale{s}/xoi', f'MLane (FpI FRndscale) {ES[s]}')
    add(f'vcmp{s}/kxoi', f'MCmp (FpI FCmp) {ES[s]}')
for s in ['ps', 'pd', 'ss', 'sd']:
    i = 'xxoi'
    add(f'vcmp{s}/xxoi', f'{kind(s)} (FpI FCmp) {ES[s]}')
    add(f'vrange{s}/xxoi', f'{kind(s)} (FpI FRange) {ES[s]}')
    for op, c in [('rcp14', 'FRcp14'), ('rsqrt14', 'FRsqrt14')]:
        if s in ('ss', 'sd'): add(f'v{op}{s}/xxo', f'MScalar (Fp2 {c}) {ES[s]}')
        else: add(f'v{op}{s}/xo', f'MLane (Fp {c}) {ES[s]}')
    if s in ('ss', 'sd'): add(f'vround{s}/xxoi', f'MScalar (Fp2I FRound) {ES[s]}')
    else: add(f'vround{s}/xoi', f'MLane (FpI FRound) {ES[s]}')
for op, c in [('rcp', 'FRcp'), ('rsqrt', 'FRsqrt')]:
    add(f'v{op}ps/xo', f'MLane (Fp {c}) 32'); add(f'v{op}ss/xxo', f'MScalar (Fp2 {c}) 32')
    add(f'v{op}ph/xo', f'MLane (Fp {c}) 16'); add(f'v{op}sh/xxo', f'MScalar (Fp2 {c}) 16')
for s in ['ps', 'pd', 'ss', 'sd', 'ph', 'sh']:
    add(f'vscalef{s}/xxo', f'{kind(s)} (Fp FScalef) {ES[s]}')
for n, c, e in [('dq2ps', 'FOfS', 32), ('udq2ps', 'FOfU', 32), ('ps2dq', 'FToS', 32), ('ps2udq', 'FToU', 32), ('tps2dq', 'FTruncS', 32), ('tps2udq', 'FTruncU', 32),
                ('qq2pd', 'FOfS', 64), ('uqq2pd', 'FOfU', 64), ('pd2qq', 'FToS', 64), ('pd2uqq', 'FToU', 64), ('tpd2qq', 'FTruncS', 64), ('tpd2uqq', 'FTruncU', 64),
                ('w2ph', 'FOfS', 16), ('uw2ph', 'FOfU', 16), ('ph2w', 'FToS', 16), ('ph2uw', 'FToU', 16), ('tph2w', 'FTruncS', 16), ('tph2uw', 'FTruncU', 16)]:
    add(f'vcvt{n}/xo', f'MLane (Fp {c}) {e}')
for s in 'bwdq':
    add(f'vpadd{s}/xxo', f'MLane Add {ES[s]}'); add(f'vpsub{s}/xxo', f'MLane Sub {ES[s]}')
    for x in 'su':
        add(f'vpmax{x}{s}/xxo', f'MLane Max{x} {ES[s]}'); add(f'vpmin{x}{s}/xxo', f'MLane Min{x} {ES[s]}')
    for k in ('xxo', 'kxo'):
        m = 'MCmp' if k == 'kxo' else 'MLane'
        add(f'vpcmpeq{s}/{k}', f'{m} Eq {ES[s]}'); add(f'vpcmpgt{s}/{k}', f'{m} Gts {ES[s]}')
    add(f'vpcmp{s}/kxoi', f'MCmp CmpS {ES[s]}'); add(f'vpcmpu{s}/kxoi', f'MCmp CmpU {ES[s]}')
    add(f'vptestm{s}/kxo', f'MCmp And {ES[s]}'); add(f'vptestnm{s}/kxo', f'MCmp Testn {ES[s]}')
    add(f'vpabs{s}/xo', f'MLane Abs {ES[s]}'); add(f'vpopcnt{s}/xo', f'MLane Popcnt {ES[s]}')
    add(f'vpbroadcast{s}/xo', f'MSplat {ES[s]} {ES[s]}')
    for t, b in [('i', 'false'), ('t', 'true')]:
        add(f'vperm{t}2{s}/xxo', f'MPerm2 {b} {ES[s]}')
    if s != 'q': add(f'vpsign{s}/xxo', f'MLane Sign {ES[s]}')
    if s in 'bw':
        for o in ['adds', 'addus', 'subs', 'subus']:
            add(f'vp{o}{s}/xxo', f'MLane {o.capitalize()} {ES[s]}')
        add(f'vpavg{s}/xxo', f'MLane Avg {ES[s]}')
        add(f'vperm{s}/xxo', f'MPerm {ES[s]}')
    if s in 'dq':
        add(f'vprolv{s}/xxo', f'MLane Rolv {ES[s]}'); add(f'vprorv{s}/xxo', f'MLane Rorv {ES[s]}')
        add(f'vplzcnt{s}/xo', f'MLane Lzcnt {ES[s]}'); add(f'vpternlog{s}/xxoi', f'MLane Tern {ES[s]}')
        add(f'valign{s}/xxoi', f'MAlign {ES[s]}')
    if s in 'wdq':
        add(f'vpsllv{s}/xxo', f'MLane Shlv {ES[s]}'); add(f'vpsrlv{s}/xxo', f'MLane Shrv {ES[s]}'); add(f'vpsrav{s}/xxo', f'MLane Sarv {ES[s]}')
        add(f'vpmull{s}/xxo', f'MLane Mullo {ES[s]}')
        add(f'vpshldv{s}/xxo', f'MLane Shldv {ES[s]}'); add(f'vpshrdv{s}/xxo', f'MLane Shrdv {ES[s]}')
        add(f'vpshld{s}/xxoi', f'MLane Shldi {ES[s]}'); add(f'vpshrd{s}/xxoi', f'MLane Shrdi {ES[s]}')
for t, b in [('i', 'false'), ('t', 'true')]:
    for s in ['ps', 'pd']: add(f'vperm{t}2{s}/xxo', f'MPerm2 {b} {ES[s]}')
add('vpmulhw/xxo', 'MLane Mulhs 16'); add('vpmulhuw/xxo', 'MLane Mulhu 16'); add('vpmulhrsw/xxo', 'MLane Mulhrs 16')
add('vpmuldq/xxo', 'MLane Muls32 64'); add('vpmuludq/xxo', 'MLane Mulu32 64')
add('vpmadd52luq/xxo', 'MLane Madd52lo 64'); add('vpmadd52huq/xxo', 'MLane Madd52hi 64')
add('vpermd/yyo', 'MPerm 32'); add('vpermps/yyo', 'MPerm 32'); add('vpermpd/yyo', 'MPerm 64')
add('vpshufb/xxo', 'MShufB')
add('vpshufd/xoi', 'MShuf 32 128'); add('vpermilps/xoi', 'MShuf 32 128'); add('vpermq/yoi', 'MShuf 64 256'); add('vpermpd/yoi', 'MShuf 64 256')
for a, b, e in [('vpunpcklbw', 'vpunpckhbw', 8), ('vpunpcklwd', 'vpunpckhwd', 16), ('vpunpckldq', 'vpunpckhdq', 32), ('vpunpcklqdq', 'vpunpckhqdq', 64),
                ('vunpcklps', 'vunpckhps', 32), ('vunpcklpd', 'vunpckhpd', 64)]:
    add(a + '/xxo', f'MUnpack false {e}'); add(b + '/xxo', f'MUnpack true {e}')
for x, b in [('z', 'false'), ('s', 'true')]:
    for p in ['bw', 'bd', 'bq', 'wd', 'wq', 'dq']:
        add(f'vpmov{x}x{p}/xo', f'MExt {b} {ES[p[1]]} {ES[p[0]]}')
add('vmovshdup/xo', 'MDup true 32'); add('vmovsldup/xo', 'MDup false 32')
for n, k, e, w in [('ss', 'xo', 32, 32), ('sd', 'yo', 64, 64), ('f128', 'ya', 64, 128), ('i128', 'ya', 64, 128), ('f32x2', 'yo', 32, 64), ('i32x2', 'xo', 32, 64),
                   ('f32x4', 'ya', 32, 128), ('i32x4', 'yo', 32, 128), ('f64x2', 'ya', 64, 128), ('i64x2', 'yo', 64, 128),
                   ('f32x8', 'za', 32, 256), ('i32x8', 'zo', 32, 256), ('f64x4', 'za', 64, 256), ('i64x4', 'zo', 64, 256)]:
    add(f'vbroadcast{n}/{k}', f'MSplat {e} {w}')
for n, e in [('aps', 32), ('apd', 64), ('ups', 32), ('upd', 64), ('dqa', 64), ('dqu', 64), ('dqa32', 32), ('dqa64', 64), ('dqu8', 8), ('dqu16', 16), ('dqu32', 32), ('dqu64', 64)]:
    for k in ['xo', 'ax']:
        add(f'vmov{n}/{k}', f'MLane Mov {e}')
for n, e in [('ss', 32), ('sd', 64), ('sh', 16)]:
    for k in ['xa', 'ax']:
        add(f'vmov{n}/{k}', f'MOne {e}')
assert len({n for n, _, _ in out}) == len(out)
txt = '''(* The vector instructions whose execution is specified: name in the table of methods, row of IsaRows.v, meaning.
   From the Intel SDM vol. 2; written by tools/vectab.py. *)
From Coq Require Import ZArith List String.
From Verif Require Import SpecIsa IsaRows SpecExec SpecVec.
Import ListNotations.
Open Scope string_scope.
Open Scope list_scope.
Open Scope Z_scope.
Definition vec_isa : list (string * vrow * meaning) := [
''' + ';\n'.join(f'  ("{n}", {r}, {m})' for n, r, m in out) + '''
].
(* the instructions of the processor *)
Definition vec_proc : list (vrow * meaning) := map (fun t => (snd (fst t), snd t)) vec_isa.
(* what the instruction of that name does *)
Definition vec_named (n : string) : option (vrow * meaning) :=
  match find (fun t => String.eqb n (fst (fst t))) vec_isa with Some t => Some (snd (fst t), snd t) | None => None end.
'''
open(os.path.join(root, 'VecIsa.v'), 'w').write(txt)
print(len(out), sorted({names[n][2] for n, _, _ in out}), sorted({names[n][0] for n, _, _ in out}))
