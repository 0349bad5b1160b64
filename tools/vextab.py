#!/usr/bin/env python3
"""Pairs the VEX/EVEX methods of xbyak_mnemonic.h (as translated by mnemonic.py) with the rows of isa.py
and writes rocq/theories/VexTables.v: lists of entries and the proofs that each entry implements its row."""
import sys, os, re, collections
sys.path.insert(0, os.path.dirname(os.path.abspath(__file__)))
argv, sys.argv = sys.argv, ['x']
import mnemonic, isa
HERE = os.path.dirname(os.path.abspath(__file__))

# methods that do not match the table; see PropIsaRefuted.v and DESIGN.md
DEFECT = {
 'vcvtsd2si/do','vcvtsd2si/qo','vcvtss2si/do','vcvtss2si/qo','vcvttsd2si/do','vcvttsd2si/qo','vcvttss2si/do','vcvttss2si/qo',  # disp8 factor
 'vcvtne2ph2bf8/xxo','vcvtne2ph2bf8s/xxo','vcvtne2ph2hf8/xxo','vcvtne2ph2hf8s/xxo','vcvthf82ph/xo',                              # disp8 factor
 'vpermq/yyo','vp2intersectd/kxo','vp2intersectq/kxo',                                                                           # VEX form emitted
 'vmpsadbw/xxoip',                                                                                                                # broadcast accepted
 'vsm3msg1/xxo','vsm3msg2/xxo','vsm3rnds2/xxoi',                                                                                 # EVEX form emitted
}
# rounding / sae modifiers accepted where the instruction has none (or the other kind)
NORC = set('''vgf2p8affineqb/xxoi vgf2p8affineinvqb/xxoi vgf2p8mulb/xxo vcvtne2ps2bf16/xxo vdpbf16ps/xxo vpshldd/xxoi vpshldq/xxoi
 vpshldw/xxoi vpshrdd/xxoi vpshrdq/xxoi vpshrdw/xxoi vpshldvd/xxo vpshldvq/xxo vpshldvw/xxo vpshrdvd/xxo vpshrdvq/xxo vpshrdvw/xxo
 vmovddup/xo vmovdqa32/xo vmovdqa32/ax vmovdqa64/xo vmovdqa64/ax vmovdqu8/xo vmovdqu8/ax vmovdqu16/xo vmovdqu16/ax vmovdqu32/xo
 vmovdqu32/ax vmovdqu64/xo vmovdqu64/ax vpexpandb/xo vpexpandw/xo vcvttps2ibs/xo vcvttps2iubs/xo vcvttph2ibs/xo vcvttph2iubs/xo
 vcvtneps2bf16/xop vpdpbusd/xxop vpdpbusds/xxop vpdpwssd/xxop vpdpwssds/xxop vcvtsi2sh/xxo vcvtusi2sh/xxo
 vpopcntb/xo vpopcntw/xo vpopcntd/xo vpopcntq/xo'''.split())
CLS = {'x':'cX','y':'cY','z':'cZ','k':'cK','o':'cO','a':'cA','b':'cR 8','w':'cR 16','d':'cR 32','q':'cR 64','e':'cRe','r':'cRe','t':'cT'}
fns = {}
for f in mnemonic.main():
    if f['sec'] in ('omit','names') or f['state']: continue
    fns[f['name']+'/'+''.join(p['let'] for p in f['params'])] = f
TYPE = r'\(*T_\w+\)*(?: \|\|\| \(*T_\w+\)*)*'
def norm(f):
    d = f['def']; types = []
    def sub(m): types.append(m[0]); return 'TYPE'
    d = re.sub(TYPE, sub, d)
    codes = re.findall(r'0x[0-9A-Fa-f]+', d); d = re.sub(r'0x[0-9A-Fa-f]+', 'CODE', d)
    for i, p in enumerate(f['params']): d = re.sub(r'\bp_%s\b' % p['name'], '#%d' % (i+1), d)
    return d, types, codes
# shape: (signature regexp, normalised body) -> (adaptor, lemma, vl rule[, vls])
S = '; '.join
A3 = 'eapply %s; [reflexivity|reflexivity|discriminate|chk|rcm|reflexivity|reflexivity]'
A2 = 'eapply %s; [reflexivity|discriminate|chk|rcm|reflexivity|reflexivity]'
ALL = '[128; 256; 512]'
def d2(lem, vls): return lambda ty, co, fn: 'apply (%s (%s) %s %s); [reflexivity|discriminate|chk|rcm|reflexivity|reflexivity|dred %s]' % (lem, ty, co, vls, fn)
def d3(lem, vls): return lambda ty, co, fn: 'apply (%s (%s) %s %s); [reflexivity|reflexivity|discriminate|chk|rcm|reflexivity|reflexivity|dred2 %s]' % (lem, ty, co, vls, fn)
def kx(lem): return lambda ty, co, fn: 'apply (%s (%s) %s %s); [chk|rcm|reflexivity|reflexivity|discriminate|incls|reflexivity|dredk %s]' % (lem, ty, co, ALL, fn)
KK = 'eapply (%s _ _ [128]); [chk|rcm|reflexivity|reflexivity|reflexivity]'
G2 = lambda ty, co, fn: 'apply (below_ro _ _ _ _ _ _ (fun a o => opAVX_X_XM_IMM a o (%s) %s NONE)); [gred %s|%s]' % (ty, co, fn, A2 % 'impl_rm')
G3 = lambda ty, co, fn: 'apply (below_rro _ _ _ _ _ _ (fun a b o => opAVX_X_X_XM a (OReg b) o (%s) %s NONE)); [gred %s|%s]' % (ty, co, fn, A3 % 'impl_rvm')
G3O = lambda ty, co, fn: 'apply (below_roo _ _ _ _ _ _ (fun a b o => opAVX_X_X_XM a b o (%s) %s NONE)); [gred %s|%s]' % (ty, co, fn, A3 % 'impl_rvm_oo')
CV = 'apply %s; [chk|rcm|reflexivity|reflexivity]'
FPV = lambda ty, co, fn: 'apply (impl_fpclass_v (%s) %s); [chk|rcm|reflexivity|reflexivity|gred %s]' % (ty, co, fn)
SH = [
 (r'opAVX_X_X_XM (Xmm \d) (OReg (Xmm 0)) (OMem #1) TYPE CODE NONE', 'a1', 'apply impl_md; [chk|rcm|reflexivity|reflexivity|lia|reflexivity]'),
 ('fn tt (if (negb (isBit #1 i32e)) then throw ERR_BAD_COMBINATION else opAVX_X_X_XM (if (isXMM #2) then (Xmm (getIdx #1)) else (Ymm (getIdx #1))) (OReg (cvtIdx0 (OReg #2))) (OReg #2) TYPE CODE NONE)', 'rr',
   lambda ty, co, fn: 'apply (impl_movmsk (%s) %s); [rcm|reflexivity|chk|reflexivity|gred %s]' % (ty, co, fn), 'VlAll'),
 ('opAVX_X_X_XM #1 (OReg (Xmm 0)) (OReg (Xmm (getIdx #2))) TYPE CODE NONE', 'rr', 'apply impl_movq_rm; [rcm|reflexivity|chk|reflexivity]', 'VlAll'),
 ('opAVX_X_X_XM #2 (OReg (Xmm 0)) (OReg (Xmm (getIdx #1))) TYPE CODE NONE', 'rr', 'apply impl_movq_mr; [rcm|reflexivity|chk|reflexivity]', 'VlAll'),
 ('opCvt6 #1 #2 #3 TYPE CODE', 'rro', 'apply impl_cvt6; [chk|rcm|reflexivity|reflexivity|reflexivity|reflexivity]', 'VlAll'),
 ('opCvt2 #1 #2 TYPE CODE', 'ro', CV % 'impl_cvt2', 'VlHalf'),
 ('checkCvt4 #1 #2 ;;; opCvt #1 #2 TYPE CODE', 'ro', CV % 'impl_cvt4', 'VlHalf'),
 ('opCvt5 #1 #2 TYPE CODE', 'ro', CV % 'impl_cvt5', 'VlMem'),
 ('fn tt (let #3 := w8 #3 in if (negb (isBit (ob #2) ((128 ||| 256) ||| 512))) then throw ERR_BAD_MEM_SIZE else t0 <- changeBit #1 (getBit (ob #2)) ;; opVex t0 None #2 TYPE CODE #3)', 'roi', FPV, 'VlMem'),
 ('let #3 := w8 #3 in t0 <- changeBit #1 (getBit (ob #2)) ;; opVex t0 None #2 TYPE CODE #3', 'roi', FPV, 'VlMem'),
 ('fn tt (let #3 := w8 #3 in if (negb (isXMEM (ob #2))) then throw ERR_BAD_MEM_SIZE else opVex #1 None #2 TYPE CODE #3)', 'roi',
   lambda ty, co, fn: 'apply (impl_fpclass_s (%s) %s); [chk|rcm|reflexivity|reflexivity|gred %s|gredx %s]' % (ty, co, fn, fn), 'VlAll'),
 ('fn tt (if (negb (is_ #2 (XMM ||| YMM) 0)) then throw ERR_BAD_COMBINATION else opVex (if (isYMM #2) then (Ymm (getIdx #1)) else (Xmm (getIdx #1))) None (OReg #2) TYPE CODE NONE)', 'rr',
   lambda ty, co, fn: 'apply (impl_movmskb (%s) %s); [rcm|reflexivity|chk|reflexivity|gredb %s]' % (ty, co, fn), 'VlAll'),
 ('opVex #1 (Some (Tmm 0)) (OReg (Tmm 0)) TYPE CODE NONE', 'r1', 'eapply impl_t; [chk|reflexivity|reflexivity|reflexivity|reflexivity|reflexivity]', 'VlAll'),
 ('opVex #1 (Some #3) (OReg #2) TYPE CODE NONE', 'rrr', 'eapply impl_ttt; [chk|reflexivity|reflexivity|reflexivity|reflexivity|reflexivity]', 'VlAll'),
 ('opAVX_X_X_XM #1 (OReg #2) #3 TYPE CODE NONE', 'rro', A3 % 'impl_rvm'),
 ('opAVX_X_X_XM #1 #2 #3 TYPE CODE NONE', 'roo', A3 % 'impl_rvm_oo'),
 ('let #4 := w8 #4 in opAVX_X_X_XM #1 (OReg #2) #3 TYPE CODE #4', 'rroi', A3 % 'impl_rvmi'),
 ('opAVX_X_X_XM #1 (OReg #2) (OMem #3) TYPE CODE NONE', 'rra', 'eapply impl_rvm_a; [reflexivity|reflexivity|discriminate|chk|rcm|reflexivity|reflexivity|reflexivity]'),
 ('opAVX_X_X_XM #1 (OReg #2) (OReg #3) TYPE CODE NONE', 'rrr', A3 % 'impl_rvm_r'),
 ('opAVX_X_X_XM #3 (OReg #2) (OMem #1) TYPE CODE NONE', 'arr', 'eapply impl_mvr; [reflexivity|reflexivity|chk|rcm|reflexivity|reflexivity]'),
 ('opAVX_X_X_XM #1 (OReg #2) #3 TYPE CODE ((getIdx #4) <<< 4)', 'rror', A3 % 'impl_rvm4'),
 ('opAVX_X_XM_IMM #1 #2 TYPE CODE NONE', 'ro', A2 % 'impl_rm'),
 ('let #3 := w8 #3 in opAVX_X_XM_IMM #1 #2 TYPE CODE #3', 'roi', A2 % 'impl_rmi'),
 ('opAVX_X_XM_IMM #1 (OMem #2) TYPE CODE NONE', 'ra', 'eapply impl_rm_a; [reflexivity|chk|rcm|reflexivity|reflexivity]'),
 ('opAVX_X_X_XM #1 (OReg (cvtIdx0 (OReg #1))) (OMem #2) TYPE CODE NONE', 'ra', 'eapply impl_rm_a\'; [reflexivity|chk|rcm|reflexivity|reflexivity]'),
 ('opAVX_X_XM_IMM #2 (OMem #1) TYPE CODE NONE', 'ar', 'eapply impl_mr_a; [reflexivity|chk|rcm|reflexivity|reflexivity]'),
 ('opAVX_X_XM_IMM #2 #1 TYPE CODE NONE', 'or_', A2 % 'impl_mr'),
 ('opAVX_X_X_XM #1 (OReg (Xmm 0)) (OMem #2) TYPE CODE NONE', 'ra', 'eapply impl_rm0_a; [reflexivity|chk|rcm|reflexivity|reflexivity]'),
 ('opAVX_X_X_XM #2 (OReg (Xmm 0)) (OMem #1) TYPE CODE NONE', 'ar', 'eapply impl_mr0_a; [reflexivity|chk|rcm|reflexivity|reflexivity]'),
 ('opAVX_X_X_XM #1 (OReg (Xmm 0)) (OReg #2) TYPE CODE NONE', 'rr', A2 % 'impl_rm0_r'),
 (r'let #3 := w8 #3 in opAVX_X_X_XM (XmmK (kind_ #1) \d) (OReg #1) #2 TYPE CODE #3', 'roi', 'eapply impl_vmi; [reflexivity|discriminate|chk|rcm|reflexivity|reflexivity|reflexivity]'),
 ('checkCvt1 (OReg #1) #2 ;;; opVex #1 None #2 TYPE CODE NONE', 'ro', d2('impl_d_ro', ALL)),
 ('let #3 := w8 #3 in checkCvt1 (OReg #2) #1 ;;; opVex #2 None #1 TYPE CODE #3', 'ori', d2('impl_d_ori', ALL)),
 ('opVex #1 None (OMem #2) TYPE CODE NONE', 'ra', lambda ty, co, fn: 'apply (impl_d_ra (%s) %s %s); [reflexivity|chk|rcm|reflexivity|reflexivity|dred %s]' % (ty, co, ALL, fn)),
 ('opVex #2 None (OMem #1) TYPE CODE NONE', 'ar', lambda ty, co, fn: 'apply (impl_d_ar (%s) %s %s); [reflexivity|chk|rcm|reflexivity|reflexivity|dred %s]' % (ty, co, ALL, fn)),
 ('xk|xb|xw|xd|xq:opVex #1 None (OReg #2) TYPE CODE NONE', 'rr', d2('impl_d_rr', ALL)),
 ('kk:opVex #1 None (OReg #2) TYPE CODE NONE', 'rr', KK % 'impl_kk', 'VlAll'),
 ('kx:opVex #1 None (OReg #2) TYPE CODE NONE', 'rr', lambda ty, co, fn: 'apply (impl_kx (%s) %s %s); [chk|rcm|reflexivity|reflexivity|incls|reflexivity]' % (ty, co, ALL), 'VlAll'),
 ('kkk:opVex #1 (Some #2) (OReg #3) TYPE CODE NONE', 'rrr', KK % 'impl_kkk', 'VlAll'),
 ('let #3 := w8 #3 in opVex #1 None (OReg #2) TYPE CODE #3', 'rri', KK % 'impl_kki', 'VlAll'),
 ('opVmov #1 #2 TYPE CODE true', 'or_', d2('impl_d_or', ALL)),
 ('opVmov #1 #2 TYPE CODE false', 'or_', d2('impl_d_or', ALL)),
 ('fn tt (if (negb ((isXMM (ob #2)) || (isMEM #2))) then throw ERR_BAD_COMBINATION else opAVX_X_XM_IMM #1 #2 TYPE CODE NONE)', 'ro', G2),
 ('fn tt (if (((negb (isMEM #2)) && (negb ((isYMM #1) && (isXMM (ob #2))))) && (negb ((isZMM #1) && (isXMM (ob #2))))) then throw ERR_BAD_COMBINATION else opAVX_X_XM_IMM #1 #2 TYPE CODE NONE)', 'ro', G2),
 ('fn tt (if ((negb (isXMM (ob #2))) && (negb (isMEM #2))) then throw ERR_BAD_MEM_SIZE else opVex #1 None #2 TYPE CODE NONE)', 'ro', d2('impl_d_ro', ALL)),
 ('fn tt (if ((negb (isNone (ob #3))) && (negb (isXMM (ob #3)))) then throw ERR_BAD_COMBINATION else opAVX_X_X_XM #1 (OReg #2) #3 TYPE CODE NONE)', 'rro', G3),
 ('fn tt (if ((negb (isNone (ob #3))) && (negb (isMEM #3))) then throw ERR_BAD_COMBINATION else opAVX_X_X_XM #1 #2 #3 TYPE CODE NONE)', 'roo', G3O),
 ('opAVX_K_X_XM #1 #2 #3 TYPE CODE NONE', 'rro', kx('impl_kxo')),
 ('opVex #1 (Some #2) #3 TYPE CODE NONE', 'rro', kx('impl_kxo')),
 ('let #4 := w8 #4 in opAVX_K_X_XM #1 #2 #3 TYPE CODE #4', 'rroi', kx('impl_kxoi')),
 ('let #4 := w8 #4 in opVex #1 (Some #2) #3 TYPE CODE #4', 'rroi', kx('impl_kxoi')),
 ('fn tt (let #3 := w8 #3 in if (negb (is_ (ob #1) (MEM ||| XMM) 0)) then throw ERR_BAD_COMBINATION else opVex #2 None #1 TYPE CODE #3)', 'ori', d2('impl_d_ori', '[256; 512]')),
 ('fn tt (let #3 := w8 #3 in if (negb (is_ (ob #1) (MEM ||| YMM) 0)) then throw ERR_BAD_COMBINATION else opVex #2 None #1 TYPE CODE #3)', 'ori', d2('impl_d_ori', '[512]')),
 ('fn tt (let #3 := w8 #3 in if (negb ((isXMEM (ob #1)) && (isYMM #2))) then throw ERR_BAD_COMBINATION else opVex #2 None #1 TYPE CODE #3)', 'ori', d2('impl_d_ori', '[256]')),
 (r'fn tt (let #3 := w8 #3 in if (negb (((isREGb (ob #1) \S+) || (isMEM #1)) && (isXMM #2))) then throw ERR_BAD_COMBINATION else opVex #2 None #1 TYPE CODE #3)', 'ori', d2('impl_d_ori', '[128]')),
 (r'fn tt (let #3 := w8 #3 in if (negb (((isREGb (ob #1) ((8 ||| 16) ||| i32e)) || (isMEM #1)) && (isXMM #2))) then throw ERR_BAD_COMBINATION else opVex #2 None #1 TYPE CODE #3)', 'ori', d2('impl_d_ori', '[128]')),
 ('fn tt (let #4 := w8 #4 in if (negb (((kind_ #1) =? (kind_ #2)) && (is_ (ob #3) (MEM ||| XMM) 0))) then throw ERR_BAD_COMBINATION else opVex #1 (Some #2) #3 TYPE CODE #4)', 'rroi', d3('impl_d_rroi', '[256; 512]')),
 ('fn tt (let #4 := w8 #4 in if (negb (is_ (ob #3) (MEM ||| YMM) 0)) then throw ERR_BAD_COMBINATION else opVex #1 (Some #2) #3 TYPE CODE #4)', 'rroi', d3('impl_d_rroi', '[512]')),
 ('fn tt (let #4 := w8 #4 in if (negb (((isYMM #1) && (isYMM #2)) && (isXMEM (ob #3)))) then throw ERR_BAD_COMBINATION else opVex #1 (Some #2) #3 TYPE CODE #4)', 'rroi', d3('impl_d_rroi', '[256]')),
 ('fn tt (let #4 := w8 #4 in if (negb (((isYMM #1) && (isYMM #2)) && (isYMEM (ob #3)))) then throw ERR_BAD_COMBINATION else opVex #1 (Some #2) #3 TYPE CODE #4)', 'rroi', d3('impl_d_rroi', '[256]')),
 (r'fn tt (let #4 := w8 #4 in if (negb (((isXMM #1) && (isXMM #2)) && ((isREGb (ob #3) \S+) || (isMEM #3)))) then throw ERR_BAD_COMBINATION else opVex #1 (Some #2) #3 TYPE CODE #4)', 'rroi', d3('impl_d_rroi', '[128]')),
 ('fn tt (if (negb ((isYMM #1) && (isXMM #2))) then throw ERR_BAD_PARAMETER else opVex #1 None (OReg #2) TYPE CODE NONE)', 'rr', d2('impl_d_rr', '[256]')),
 ('fn tt (if (negb ((isYMM #1) && (isYMM #2))) then throw ERR_BAD_PARAMETER else opVex #1 None (OReg #2) TYPE CODE NONE)', 'rr', d2('impl_d_rr', '[256]')),
 ('fn tt (if (negb (((isYMM #1) && (isYMM #2)) && (isXMM #3))) then throw ERR_BAD_PARAMETER else opVex #1 (Some #2) (OReg #3) TYPE CODE NONE)', 'rrr', d3('impl_d_rrr', '[256]')),
]
PATS = []
for s in SH:
    pat = s[0]; sig = None
    m = re.match(r'([a-z|]+):', pat)
    if m: sig = m[1].split('|'); pat = pat[len(m[0]):]
    rx = re.escape(pat).replace(re.escape(r'\d'), r'\d').replace(re.escape(r'\S+'), r'[^ ]+')
    PATS.append((re.compile(rx + r'$'), sig, s))
def shape(n, f):
    d, ty, co = norm(f)
    sg = n.split('/')[1]
    for rx, sig, s in PATS:
        if rx.match(d) and (sig is None or sg in sig): return s, ty, co
    return None, ty, co
def special(n, f):
    nm, sg = n.split('/'); d = f['def']; row = isa.coqname(n); fn = f['coq']
    def ent(cl, ad, row=row, vl='VlRegs', g=fn): return '  mkEntry "%s" [%s] (%s %s) %s %s' % (n, cl, ad, g, row, vl)
    m = re.match(r'let v_type := \((.*) \|\|\| \(if \(isREGb p_r 64\) then (.*) else (.*)\)\) in opVex p_r \(Some \(Xmm 0\)\) p_op v_type (0x\w+) NONE$', d)
    if m: return [('eo', [(ent('cR %d' % w + '; cO', 'ro', row + str(w), 'VlAll'),
            'apply (impl_eo (%s) %s %s %s _ _ _ %d); [auto|chk|rcm|reflexivity|reflexivity]' % (m[1], m[4], m[2], m[3], w)) for w in (32, 64)])]
    if d.startswith('opCvt3 '): return [('cvt3', [(ent('cX; cX; ' + c, 'rro', row + str(w)), pr % w) for c, w, pr in (
            ('cG 32', 32, 'apply (impl_cvt3_g _ _ _ _ _ _ _ %d); [auto|chk|rcm|reflexivity|reflexivity]'),
            ('cG 64', 64, 'apply (impl_cvt3_g _ _ _ _ _ _ _ %d); [auto|chk|rcm|reflexivity|reflexivity]'),
            ('cMn 64', 32, 'apply (impl_cvt3_m _ _ _ _ _ _ _ %d); [auto|chk|rcm|reflexivity|reflexivity|auto]'),
            ('cMs 64', 64, 'apply (impl_cvt3_m _ _ _ _ _ _ _ %d); [auto|chk|rcm|reflexivity|reflexivity|auto]'))])]
    m = re.search(r'let v_type := \((.*) \|\|\| \(if \(isBit \(ob p_op\) 32\) then (.*) else (.*)\)\) in opVex p_x1 \(Some p_x2\) p_op v_type (0x\w+) NONE\)$', d)
    if m: return [('si2sh', [(ent('cX; cX; %s %d' % (c, w), 'rro', row + str(w)),
            'apply (impl_si2sh (%s) %s %s %s _ _ _ %d); [auto|chk|rcm|reflexivity|reflexivity|auto|gredg %s]' % (m[1], m[4], m[3], m[2], w, fn)) for c in ('cR', 'cMs') for w in (32, 64)])]
    if d.startswith('opEncoding '): return [('enc', [(ent('cX; cX; cO', 'rro', g='(fun a b o => %s a b o enc)' % fn),
            'apply impl_enc; [reflexivity|reflexivity|discriminate|chk|rcm|chk|rcm|reflexivity|reflexivity]')])]
    m = re.match(r't0 <- orEvexIf p_encoding 0 T_MUST_EVEX 0 ;; opCvt2 p_x p_op \((.*) \|\|\| t0\) (0x\w+)$', d)
    if m: return [('enc', [(ent('cX; cO', 'ro', vl='VlHalf', g='(fun a o => %s a o enc)' % fn),
            'apply (either_ro _ _ _ _ _ _ (fun a o => opCvt2 a o (%s ||| 0) %s) (fun a o => opCvt2 a o (%s ||| (T_MUST_EVEX ||| T_MUST_EVEX)) %s)); [gred2 %s|%s|%s]' % (m[1], m[2], m[1], m[2], fn, CV % 'impl_cvt2', CV % 'impl_cvt2'))])]
    return None
def main():
    groups = collections.OrderedDict(); rest = []
    for n, enc, v, e in isa.ROWS:
        if n not in fns or n in DEFECT: continue
        f = fns[n]; s, ty, co = shape(n, f)
        sp = special(n, f) if s is None else None
        if sp:
            for k, es in sp: groups.setdefault((k, n in NORC), []).extend(es)
            continue
        if s is None: rest.append((n, norm(f)[0])); continue
        sg = n.split('/')[1]
        cl = [CLS[c] for c in sg if c not in 'ip']
        if s[1] == 'rror': cl[3] = 'cX4'
        if s[1] == 'roo': cl[1] = 'cX'
        if s[2] is G3 and sg == 'xxo': cl[2] = 'cX'   # the guard refuses memory
        if s[2] is G3O: cl[2] = 'cA'                  # the guard refuses registers
        if n in ('vmovq/xq', 'vmovq/qx'): cl = [c.replace('cR', 'cG') for c in cl]
        proof = s[2](re.sub(r'^\((.*)\)$', r'\1', ty[0]), co[0], f['coq']) if callable(s[2]) else s[2]
        ent = '  mkEntry "%s" [%s] (%s %s) %s %s' % (n, S(cl), s[1], f['coq'], isa.coqname(n), s[3] if len(s) > 3 else 'VlRegs')
        groups.setdefault((SH.index(s), n in NORC), []).append((ent, proof))
    return groups, rest
HEAD = '''(* Produced by tools/vextab.py: the VEX/EVEX methods of xbyak_mnemonic.h paired with the rows of the
   instruction table, by the shape of their bodies, and the proof that each method implements its row. *)
From Coq Require Import ZArith List Bool String Lia.
From Verif Require Import Base Types Emit Encode SpecX86 SpecAddr SpecIsa SpecInsn IsaRows Wf EmitFacts MemFacts LegacyFacts VexFacts EncThms IsaFacts VexShapes VexShapes2 VexTac VexShapes3 GatherFacts Mnemonic MnemonicAvx.
Import ListNotations.
Open Scope string_scope.
Open Scope Z_scope.

'''
if __name__ == '__main__':
    groups, rest = main()
    names = {True: [], False: []}; tot = 0
    out = HEAD
    for k, ((i, norc), es) in enumerate(groups.items()):
        nm = 'tab%d' % k; tot += len(es); par = i == 'enc'
        names[norc].append((nm, par))
        out += 'Definition %s%s : list entry := [\n%s\n].\n' % (nm, ' (enc : PreferredEncoding)' if par else '', ';\n'.join(e for e, _ in es))
        out += 'Lemma %s_ok%s : Forall (implements %s) %s.\nProof.\n' % (nm, ' enc' if par else '', 'false' if norc else 'true', '(%s enc)' % nm if par else nm)
        ps = [p for _, p in es]
        if len(set(ps)) == 1: out += '  unfold %s. do %d (apply Forall_cons; [%s|]). apply Forall_nil.\nQed.\n\n' % (nm, len(ps), ps[0])
        else: out += ''.join('  apply Forall_cons; [%s|].\n' % p for p in ps) + '  apply Forall_nil.\nQed.\n\n'
    for norc, nm in ((False, 'vex_table'), (True, 'vex_table_norc')):
        out += 'Definition %s (enc : PreferredEncoding) : list entry := %s.\n' % (nm, ' ++ '.join(x + (' enc' if p else '') for x, p in names[norc]))
        out += 'Lemma %s_ok enc : Forall (implements %s) (%s enc).\nProof. unfold %s. rewrite ?Forall_app. intuition auto using %s. Qed.\n' % (nm, 'false' if norc else 'true', nm, nm, ', '.join(x + '_ok' for x, _ in names[norc]))
    # gather and scatter: index length from the mnemonic (index d or q, elements ps/d or pd/q)
    G = {'dps':'GSame','dd':'GSame','dpd':'GHalf','dq':'GHalf','qps':'GTwice','qd':'GTwice','qpd':'GSame','qq':'GSame'}
    ga = {'avx2': [], 'gather': [], 'scatter': [], 'fetch': []}; left = []
    for n, d in rest:
        m = re.match(r'vp?(gather|scatter)(pf\d)?([dq](?:ps|pd|d|q))/(\w+)$', n)
        if not m: left.append(n); continue
        row = isa.coqname(n); fn = fns[n]['coq']; g = G[m[3]]
        if m[2]: ga['fetch'].append('("%s"%%string, r_%s, %s, %s)' % (n, row[2:], '256' if g == 'GHalf' else '512', fn))
        elif m[4] == 'xax': ga['avx2'].append('("%s"%%string, %s, %s, %s)' % (n, row, g, fn))
        elif m[4] == 'xa': ga['gather'].append('("%s"%%string, %s, %s, %s)' % (n, row, g, fn))
        else: ga['scatter'].append('("%s"%%string, %s, %s, fun x m => %s m x)' % (n, row, g, fn))
    for k, ty, pr, tac in (
        ('avx2', 'string * vrow * vsib * (Reg -> Address -> Reg -> E unit)', "fun '(_, r, g, f) => gather_avx2 r g f", 'apply impl_gather; [chk|chk|reflexivity|reflexivity|discriminate|reflexivity]'),
        ('gather', 'string * vrow * vsib * (Reg -> Address -> E unit)', "fun '(_, r, g, f) => gather_evex true r g f", 'apply impl_gather2; [chk|reflexivity|discriminate|chk|reflexivity|reflexivity|reflexivity]'),
        ('scatter', 'string * vrow * vsib * (Reg -> Address -> E unit)', "fun '(_, r, g, f) => gather_evex false r g f", 'apply impl_gather2; [chk|reflexivity|discriminate|chk|reflexivity|reflexivity|reflexivity]'),
        ('fetch', 'string * vrow * Z * (Address -> E unit)', "fun '(_, r, n, f) => gather_fetch r n f", 'refine (impl_fetch _ _ _ _ _ _ _ _ _ _ _ _ _ _); [chk|reflexivity|discriminate|chk|reflexivity|lia|reflexivity|reflexivity|auto]')):
        out += 'Definition tab_%s : list (%s) := [\n  %s\n].\n' % (k, ty, ';\n  '.join(ga[k]))
        out += 'Lemma tab_%s_ok : Forall (%s) tab_%s.\nProof.\n  unfold tab_%s. do %d (apply Forall_cons; [cbv beta iota; %s|]). apply Forall_nil.\nQed.\n\n' % (k, pr, k, k, len(ga[k]), tac)
        tot += len(ga[k])
    rest = left
    open(os.path.join(HERE, '..', 'rocq', 'theories', 'VexTables.v'), 'w').write(out)
    for n in rest: print(n)
    print(tot, 'entries;', len(rest), 'left')
