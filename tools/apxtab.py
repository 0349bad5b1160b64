#!/usr/bin/env python3
"""Generates rocq/theories/ApxTables.v: the table of methods with Intel APX encodings and their rows.

The rows (prefix, map, opcode, /digit, ND, NF, source condition) are written here from the Intel APX
architecture specification, independently of xbyak_mnemonic.h; each line also names the shape lemma that
connects the method with its row.
"""
import re
MN = open('/verif/rocq/theories/Mnemonic.v').read()
have = set(re.findall(r'^Definition (i_\w+)', MN, re.M))

CC = {'o':0,'no':1,'b':2,'c':2,'nae':2,'ae':3,'nb':3,'nc':3,'e':4,'z':4,'ne':5,'nz':5,'be':6,'na':6,'a':7,'nbe':7,
      's':8,'ns':9,'p':10,'pe':10,'np':11,'po':11,'l':12,'nge':12,'ge':13,'nl':13,'le':14,'ng':14,'g':15,'nle':15}
# CCMP/CTEST: no parity conditions; 10 and 11 are always true and always false
SCC = {k: v for k, v in CC.items() if v not in (10, 11)}
SCC.update({'t': 10, 'f': 11})

missing = []
E = []   # (name, sig, ext, fun, rows, proof)
def hx(v): return '0x%02X' % v
def add(name, sig, ext, fun, rows, proof):
    m = re.search(r'i_\w+', fun)
    if m and m.group(0) not in have:
        missing.append(m.group(0))
        return
    E.append((name, sig, ext, fun, rows, proof))
def oprow(pp, opc, digit, ops, osz, nd, nf, sc='None', imm='I_none', map_=4):
    return 'mkA %s %d %s %s [%s] %s %s %s %s %s' % (pp, map_, hx(opc), 'None' if digit is None else '(Some %d)' % digit, '; '.join(ops), osz, nd, nf, sc, imm)

TY = {'NfOpt': '(T_NF ||| T_CODE1_IF1)', 'NfNo': 'T_NONE'}
for nm, meth, d, nf in [('add','add',0,'NfOpt'),('or','or_',1,'NfOpt'),('adc','adc',2,'NfNo'),('sbb','sbb',3,'NfNo'),
                        ('and','and_',4,'NfOpt'),('sub','sub',5,'NfOpt'),('xor','xor_',6,'NfOpt')]:
    opc = d * 8
    add(nm + '/roo', '[cG; cE; cE]', 'XNo', 'a_roo i_%s_roo' % meth,
        '[%s; %s]' % (oprow('NP', opc, None, ['v_','rm_a','rg_'], 'OsB', 'Nd1', nf), oprow('NP', opc + 2, None, ['v_','rg_','mm_a'], 'OsB', 'Nd1', nf)),
        'refine (roo_entry _ %s %s %s %s eq_refl eq_refl _); discriminate' % (TY[nf], hx(opc), hx(opc), nf))
    add(nm + '/roi', '[cG; cE]', 'XNo', 'a_roi i_%s_roi' % meth,
        '[%s; %s]' % (oprow('NP', 0x80, d, ['v_','rm_a'], 'OsB', 'Nd1', nf, imm='I_z'), oprow('NP', 0x83, d, ['v_','rm_a'], 'OsV', 'Nd1', nf, imm='I_8s')),
        'refine (roi_entry _ _ %d %s %s (fun _ _ _ => eq_refl) _ _ eq_refl eq_refl eq_refl); [lia|discriminate]' % (d, TY[nf], nf))
for nm, d in [('inc',0),('dec',1)]:
    add(nm + '/ro', '[cG; cE]', 'XNo', 'a_ro i_%s_ro' % nm, '[%s]' % oprow('NP', 0xFE, d, ['v_','rm_a'], 'OsB', 'Nd1', 'NfOpt'),
        'refine (ro_digit_entry _ _ (%s) %d incty (inc_fun %d) _ eq_refl eq_refl eq_refl eq_refl _ eq_refl eq_refl); [lia|discriminate]'
        % (oprow('NP', 0xFE, d, ['v_','rm_a'], 'OsB', 'Nd1', 'NfOpt'), d, d))
for nm, meth, d, nf, ty in [('neg','neg_',3,'NfOpt','(T_APX ||| T_NF ||| T_CODE1_IF1 ||| T_ND1)'),('not','not__',2,'NfNo','(T_APX ||| T_CODE1_IF1 ||| T_ND1)')]:
    r = oprow('NP', 0xF6, d, ['v_','rm_a'], 'OsB', 'Nd1', nf)
    add(nm + '/ro', '[cG; cE]', 'XNo', 'a_ro i_%sro' % meth, '[%s]' % r,
        'refine (ro_digit_entry _ _ (%s) %d (fun _ => (%s, 0xF6)) (fun _ _ _ => eq_refl) _ eq_refl eq_refl eq_refl eq_refl _ eq_refl eq_refl); [lia|discriminate]' % (r, d, ty))
for nm, meth, d, nf in [('not','not__o',2,'NfNo'),('neg','neg_o',3,'NfOpt'),('mul','mul',4,'NfOpt'),('imul','imul_o',5,'NfOpt'),('div','div',6,'NfOpt'),('idiv','idiv',7,'NfOpt')]:
    r = oprow('NP', 0xF6, d, ['rm_a'], 'OsB', 'Nd0', nf)
    add(nm + '/o', '[cE]', 'XAny', 'a_o i_%s' % meth, '[%s]' % r,
        'refine (o_digit_entry _ _ (%s) %d %s 0xF6 (fun _ => eq_refl) _ eq_refl eq_refl eq_refl eq_refl _ eq_refl eq_refl eq_refl eq_refl); [lia|discriminate]'
        % (r, d, '(T_APX ||| T_CODE1_IF1)' if nf == 'NfNo' else '(T_APX ||| T_NF ||| T_CODE1_IF1)'))
# shifts; rcl and rcr have no NF form
for nm, d in [('rol',0),('ror',1),('rcl',2),('rcr',3),('shl',4),('sal',4),('shr',5),('sar',7)]:
    nf = 'NfNo' if nm in ('rcl', 'rcr') else 'NfOpt'
    e = d + (8 if nf == 'NfOpt' else 0)
    sd = '(shiftType %d (Some noReg))' % e
    so = '(shiftType %d None)' % e
    add(nm + '/roi', '[cG; cE]', 'XNo', 'a_roi i_%s_roi' % nm,
        '[%s; %s]' % (oprow('NP', 0xD0, d, ['v_','rm_a'], 'OsB', 'Nd1', nf, imm='I_1'), oprow('NP', 0xC0, d, ['v_','rm_a'], 'OsB', 'Nd1', nf, imm='I_8')),
        'refine (shift_roi_entry _ _ %d %d %s %s (fun _ _ _ => eq_refl) _ eq_refl (fun _ => eq_refl) _ eq_refl eq_refl eq_refl eq_refl); [lia|discriminate]' % (e, d, nf, sd))
    add(nm + '/rob', '[cG; cE; cCl]', 'XNo', 'a_ror i_%s_rob' % nm,
        '[%s]' % oprow('NP', 0xD2, d, ['v_','rm_a','cl_a'], 'OsB', 'Nd1', nf),
        'refine (shift_rob_entry _ _ %d %d %s %s (fun _ _ _ => eq_refl) _ eq_refl (fun _ => eq_refl) _ eq_refl eq_refl eq_refl); [lia|discriminate]' % (e, d, nf, sd))
    add(nm + '/oi', '[cE]', 'XAny', 'a_oi i_%s_oi' % nm,
        '[%s; %s]' % (oprow('NP', 0xD0, d, ['rm_a'], 'OsB', 'Nd0', nf, imm='I_1'), oprow('NP', 0xC0, d, ['rm_a'], 'OsB', 'Nd0', nf, imm='I_8')),
        'refine (shift_oi_entry _ _ %d %d %s %s (fun _ _ => eq_refl) _ eq_refl eq_refl _ eq_refl eq_refl eq_refl eq_refl); [lia|discriminate]' % (e, d, nf, so))
    add(nm + '/ob', '[cE; cCl]', 'XAny', 'a_or i_%s_ob' % nm,
        '[%s]' % oprow('NP', 0xD2, d, ['rm_a','cl_a'], 'OsB', 'Nd0', nf),
        'refine (shift_ob_entry _ _ %d %d %s %s (fun _ _ => eq_refl) _ eq_refl eq_refl _ eq_refl eq_refl eq_refl); [lia|discriminate]' % (e, d, nf, so))
for nm, c, c2, ccl in [('shld',0xA4,0x24,0xA5),('shrd',0xAC,0x2C,0xAD)]:
    a = '%s %s' % (hx(c), hx(c2))
    add(nm + '/rori', '[cGv; cEv; cGv]', 'XNo', 'a_rori i_%s_rori' % nm, '[%s]' % oprow('NP', c2, None, ['v_','rm_a','rg_'], 'OsV', 'Nd1', 'NfOpt', imm='I_8'),
        'exact (shxd_rori_entry _ _ %s (fun _ _ _ _ => eq_refl) eq_refl)' % a)
    add(nm + '/rorb', '[cGv; cEv; cGv; cCl]', 'XNo', 'a_rorr i_%s_rorb' % nm, '[%s]' % oprow('NP', ccl, None, ['v_','rm_a','rg_','cl_a'], 'OsV', 'Nd1', 'NfOpt'),
        'exact (shxd_rorb_entry _ _ %s (fun _ _ _ _ => eq_refl) eq_refl)' % a)
    add(nm + '/ori', '[cEv; cGv]', 'XAny', 'a_ori i_%s_ori' % nm, '[%s]' % oprow('NP', c2, None, ['rm_a','rg_'], 'OsV', 'Nd0', 'NfOpt', imm='I_8'),
        'exact (shxd_ori_entry _ _ %s (fun _ _ _ => eq_refl) eq_refl)' % a)
    add(nm + '/orb', '[cEv; cGv; cCl]', 'XAny', 'a_orr i_%s_orb' % nm, '[%s]' % oprow('NP', ccl, None, ['rm_a','rg_','cl_a'], 'OsV', 'Nd0', 'NfOpt'),
        'exact (shxd_orb_entry _ _ %s (fun _ _ _ => eq_refl) eq_refl)' % a)
# imul, lzcnt, tzcnt, adcx, adox
r = oprow('NP', 0xAF, None, ['v_','rg_','rm_a'], 'OsV', 'Nd1', 'NfOpt')
RRO = 'refine (rro_entry _ _ (%s) %s %s %s (fun _ _ _ => eq_refl) eq_refl eq_refl eq_refl eq_refl eq_refl eq_refl eq_refl _ eq_refl eq_refl eq_refl); discriminate'
add('imul/rro', '[cGv; cGv; cEv]', 'XNo', 'a_rro i_imul_rro', '[%s]' % r, RRO % (r, '(T_APX ||| T_ND1 ||| T_NF)', '0xAF', 'cGv cGv cEv'))
for nm, pp, f in [('adcx','P66','T_66'),('adox','PF3','T_F3')]:
    r = oprow(pp, 0x66, None, ['v_','rg_','rm_a'], 'OsY', 'Nd1', 'NfNo')
    add(nm + '/rro', '[cGy; cGy; cEy]', 'XNo', 'a_rro i_%s_eeo' % nm, '[%s]' % r, RRO % (r, f, '0x66', 'cGy cGy cEy'))
    r = oprow(pp, 0x66, None, ['rg_','rm_a'], 'OsY', 'Nd0', 'NfNo')
    add(nm + '/ro', '[cGy; cEy]', 'XAny', 'a_ro i_%s_eo' % nm, '[%s]' % r,
        'refine (ro_entry _ _ (%s) %s 0x66 cGy cEy (%s_fun) eq_refl eq_refl eq_refl eq_refl eq_refl eq_refl _ eq_refl eq_refl eq_refl); discriminate' % (r, f, nm))
for nm, meth, opc in [('imul','imul_ro',0xAF),('lzcnt','lzcnt',0xF5),('tzcnt','tzcnt',0xF4)]:
    r = oprow('NP', opc, None, ['rg_','rm_a'], 'OsV', 'Nd0', 'NfOpt')
    add(nm + '/ro', '[cGv; cEv]', 'XAny', 'a_ro i_%s' % meth, '[%s]' % r,
        'refine (ro_entry _ _ (%s) (T_APX ||| T_NF) %s cGv cEv (fun _ _ _ _ _ _ X H => nod_done _ _ _ _ _ _ _ _ _ X H) eq_refl eq_refl eq_refl eq_refl eq_refl eq_refl _ eq_refl eq_refl eq_refl); discriminate' % (r, hx(opc)))
add('imul/roi', '[cGv; cEv]', 'XAny', 'a_roi (fun r op imm => imul_imm r op (s32 imm))',
    '[%s; %s]' % (oprow('NP', 0x69, None, ['rg_','rm_a'], 'OsV', 'NdZU', 'NfOpt', imm='I_z'), oprow('NP', 0x6B, None, ['rg_','rm_a'], 'OsV', 'NdZU', 'NfOpt', imm='I_8s')),
    'exact (imul_imm_entry _ _ (fun _ _ _ => eq_refl))')
for nm, pp, opc, osz, cls, t, c, ty, code in [
    ('movbe','NP',0x61,'OsV','cGv','T_0F38','0xF1','T_APX','0x61'),
    ('movdiri','NP',0xF9,'OsY','cGy','T_0F38','0xF9','T_APX','NONE'),
    ('aadd','NP',0xFC,'OsY','cGy','T_0F38','0x0FC','T_APX','NONE'),
    ('aand','P66',0xFC,'OsY','cGy','(T_0F38 ||| T_66)','0x0FC','(T_APX ||| T_66)','NONE'),
    ('aor','PF2',0xFC,'OsY','cGy','(T_0F38 ||| T_F2)','0x0FC','(T_APX ||| T_F2)','NONE'),
    ('axor','PF3',0xFC,'OsY','cGy','(T_0F38 ||| T_F3)','0x0FC','(T_APX ||| T_F3)','NONE')]:
    r = oprow(pp, opc, None, ['mm_a','rg_'], osz, 'Nd0', 'NfNo')
    add(nm + '/mr', '[cA; %s]' % cls, 'XAny', 'a_mr i_%s' % (nm + ('_ar' if nm == 'movbe' else '')), '[%s]' % r,
        'refine (mr_entry _ _ (%s) %s %s %s %s %s (fun _ _ => eq_refl) _ eq_refl eq_refl eq_refl eq_refl eq_refl _ eq_refl eq_refl eq_refl); discriminate' % (r, t, c, ty, code, cls))
r = oprow('NP', 0x60, None, ['rg_','mm_a'], 'OsV', 'Nd0', 'NfNo')
add('movbe/rm', '[cGv; cA]', 'XAny', 'a_rm i_movbe_ra', '[%s]' % r,
    'refine (rm_entry _ _ (%s) T_0F38 0xF0 T_APX 0x60 cGv (fun _ _ => eq_refl) _ eq_refl eq_refl eq_refl eq_refl eq_refl _ eq_refl eq_refl eq_refl); discriminate' % r)
for nm, opc, d, w in [('push2',0xFF,6,0),('push2p',0xFF,6,1),('pop2',0x8F,0,0),('pop2p',0x8F,0,1)]:
    r = oprow('NP', opc, d, ['vn_ 64','rrn_a 64'], 'Os%d' % w, 'Nd1', 'NfNo')
    add(nm, '[cRn 64; cRn 64]', 'XNo', 'a_rr i_%s' % nm, '[%s]' % r,
        'refine (pp2_entry _ _ (%s) (T_APX ||| T_ND1 ||| T_W%d) %s %d (fun _ _ => eq_refl) _ eq_refl eq_refl eq_refl eq_refl _ eq_refl eq_refl eq_refl); [lia|discriminate]' % (r, w, hx(opc), d))
for a, b, pp, opc, osz in [(32,8,'NP',0xF0,'Os0'),(32,16,'P66',0xF1,'Os0'),(32,32,'NP',0xF1,'Os0'),(64,8,'NP',0xF0,'Os1'),(64,64,'NP',0xF1,'Os1')]:
    r = oprow(pp, opc, None, ['rgn_ %d' % a, 'rmn_a %d' % b], osz, 'Nd0', 'NfNo')
    add('crc32/%d/%d' % (a, b), '[cRn %d; cEn %d]' % (a, b), 'XAny', 'a_ro i_crc32', '[%s]' % r,
        'refine (crc_entry _ _ (%s) (T_APX ||| (%s ||| T_ALLOW_DIFF_SIZE)) %s %d %d (crc_fun %d %d %s eq_refl) eq_refl eq_refl eq_refl eq_refl eq_refl eq_refl _ eq_refl eq_refl); auto'
        % (r, 'T_66' if b == 16 else '0', hx(opc), a, b, a, b, hx(opc)))
# VEX for r0 .. r15
V = ' (fun _ _ _ => eq_refl) eq_refl eq_refl eq_refl eq_refl _ eq_refl eq_refl eq_refl); discriminate'
PPT = {'NP': None, 'P66': 'T_66', 'PF2': 'T_F2', 'PF3': 'T_F3'}
for nm, pp, opc, nf in [('andn','NP',0xF2,'NfOpt'),('mulx','PF2',0xF6,'NfNo'),('pdep','PF2',0xF5,'NfNo'),('pext','PF3',0xF5,'NfNo')]:
    r = oprow(pp, opc, None, ['rg_','v_','rm_a'], 'OsY', 'Nd0', nf, map_=2)
    ty = '(T_APX ||| T_0F38 ||| T_NF)' if nf == 'NfOpt' else '(T_APX ||| %s ||| T_0F38)' % PPT[pp]
    add(nm, '[cGy; cGy; cEy]', 'XHd', 'a_rro i_%s' % nm, '[%s]' % r, 'refine (rro_v_entry _ _ (%s) %s %s' % (r, ty, hx(opc)) + V)
for nm, pp, opc, nf in [('bextr','NP',0xF7,'NfOpt'),('bzhi','NP',0xF5,'NfOpt'),('sarx','PF3',0xF7,'NfNo'),('shlx','P66',0xF7,'NfNo'),('shrx','PF2',0xF7,'NfNo')]:
    r = oprow(pp, opc, None, ['rg_','rm_a','v_'], 'OsY', 'Nd0', nf, map_=2)
    ty = '(T_APX ||| T_0F38 ||| T_NF)' if nf == 'NfOpt' else '(T_APX ||| %s ||| T_0F38)' % PPT[pp]
    add(nm, '[cGy; cEy; cGy]', 'XHd', 'a_ror i_%s' % nm, '[%s]' % r, 'refine (ror_v_entry _ _ (%s) %s %s' % (r, ty, hx(opc)) + V)
for nm, d in [('blsr',1),('blsmsk',2),('blsi',3)]:
    r = oprow('NP', 0xF3, d, ['v_','rm_a'], 'OsY', 'Nd0', 'NfOpt', map_=2)
    add(nm, '[cGy; cEy]', 'XRegs', 'a_ro i_%s' % nm, '[%s]' % r,
        'refine (vo_entry _ _ (%s) (T_APX ||| T_0F38 ||| T_NF) 0xF3 %d (fun _ _ => eq_refl) _ eq_refl eq_refl eq_refl eq_refl _ eq_refl eq_refl eq_refl); [lia|discriminate]' % (r, d))
r = oprow('PF2', 0xF0, None, ['rg_','rm_a'], 'OsY', 'Nd0', 'NfNo', imm='I_8', map_=3)
add('rorx', '[cGy; cEy]', 'XRegs', 'a_roi i_rorx', '[%s]' % r, 'refine (roi_v_entry _ _ (%s) (T_0F3A ||| T_F2 ||| T_APX) 0xF0' % r + V)
# ---- conditions ----
def cond(k): return sorted(k.items(), key=lambda p: (p[1], p[0]))
for c, k in cond(CC):
    r = oprow('NP', 0x40 + k, None, ['v_','rg_','rm_a'], 'OsV', 'Nd1', 'NfNo')
    add('cmov%s/rro' % c, '[cGv; cGv; cEv]', 'XNo', 'a_rro i_cmov%s_rro' % c, '[%s]' % r, RRO % (r, '(T_APX ||| T_ND1)', '(0x40 ||| %d)' % k, 'cGv cGv cEv'))
for c, k in cond(CC):
    add('cfcmov%s/oo' % c, '[cEv; cEv]', 'XNo', 'a_oo i_cfcmov%s_oo' % c,
        '[%s; %s]' % (oprow('NP', 0x40 + k, None, ['rg_','mm_a'], 'OsV', 'Nd0', 'NfNo'), oprow('NP', 0x40 + k, None, ['rm_a','rg_'], 'OsV', 'Nd0', 'Nf1')),
        'exact (cfcmov_oo_entry _ _ %s (fun _ _ => eq_refl) eq_refl eq_refl)' % hx(0x40 + k))
    add('cfcmov%s/rro' % c, '[cGv; cGv; cEv]', 'XNo', 'a_rro i_cfcmov%s_rro' % c,
        '[%s]' % oprow('NP', 0x40 + k, None, ['v_','rg_','rm_a'], 'OsV', 'Nd1', 'Nf1'),
        'exact (cfcmov_rro_entry _ _ %s (fun _ _ _ => eq_refl) eq_refl)' % hx(0x40 + k))
for c, k in cond(CC):
    add('set%s' % c, '[cEn 8]', 'XAny', 'a_o i_set%s' % c, '[%s]' % oprow('PF2', 0x40 + k, 0, ['rmn_a 8'], 'Os0', 'NdZU', 'NfNo'),
        'exact (setcc_entry _ _ %d (fun _ => eq_refl) eq_refl)' % k)
for c, k in cond(SCC):
    sc = '(Some %d)' % k
    add('ccmp%s/oo' % c, '[cE; cE]', 'XNo', 'a_oof i_ccmp%s_ooi' % c,
        '[%s; %s]' % (oprow('NP', 0x38, None, ['rm_a','rg_'], 'OsB', 'Nd0', 'NfNo', sc), oprow('NP', 0x3A, None, ['rg_','mm_a'], 'OsB', 'Nd0', 'NfNo', sc)),
        'refine (ccmp_entry _ _ 0x38 %d (fun _ _ _ => eq_refl) _ eq_refl eq_refl); lia' % k)
    add('ccmp%s/oi' % c, '[cE]', 'XNo', 'a_oif i_ccmp%s_oii' % c,
        '[%s; %s]' % (oprow('NP', 0x80, 7, ['rm_a'], 'OsB', 'Nd0', 'NfNo', sc, 'I_z'), oprow('NP', 0x83, 7, ['rm_a'], 'OsV', 'Nd0', 'NfNo', sc, 'I_8s')),
        'refine (ccmpi_entry _ _ %d (fun _ _ _ => eq_refl) _ eq_refl eq_refl); lia' % k)
    add('ctest%s/or' % c, '[cE; cG]', 'XNo', 'a_orf i_ctest%s_ori' % c, '[%s]' % oprow('NP', 0x84, None, ['rm_a','rg_'], 'OsB', 'Nd0', 'NfNo', sc),
        'refine (ctest_entry _ _ 0x84 %d (fun _ _ _ => eq_refl) _ eq_refl); lia' % k)
    add('ctest%s/oi' % c, '[cE]', 'XNo', 'a_oif i_ctest%s_oii' % c, '[%s]' % oprow('NP', 0xF6, 0, ['rm_a'], 'OsB', 'Nd0', 'NfNo', sc, 'I_z'),
        'refine (ctesti_entry _ _ %d (fun _ _ _ => eq_refl) _ eq_refl); lia' % k)
for c, k in cond(CC):
    if 'i_cmp%sxadd' % c not in have: continue
    r = oprow('P66', 0xE0 + k, None, ['mm_a','rg_','v_'], 'OsY', 'Nd0', 'NfNo', map_=2)
    add('cmp%sxadd' % c, '[cA; cGy; cGy]', 'XRegs', 'a_mrr i_cmp%sxadd' % c, '[%s]' % r,
        'refine (mrr_v_entry _ _ (%s) (T_APX ||| T_66 ||| T_0F38) %s' % (r, hx(0xE0 + k)) + V)

HEAD = '''(* Generated by tools/apxtab.py: the methods with Intel APX encodings (map 4, and the extended EVEX forms of maps 2 and 3).
   The rows come from the Intel APX architecture specification. *)
From Coq Require Import ZArith List Bool Lia String.
From Verif Require Import Base Types Emit Encode Mnemonic SpecX86 SpecAddr EmitFacts SpecIsa SpecInsn SpecLeg
  LegGpr3 SpecApx ApxFacts ApxShapes ApxShapes2 ApxShapes3 ApxShapes4 ApxShapes5.
Import ListNotations.
Open Scope Z_scope.
Open Scope string_scope.
'''
FACTS = '''
(* what the methods with a test of their own emit for extended operands *)
Definition incty (b : Z) : Z * Z :=
  (T_APX ||| T_NF ||| T_ND1 ||| (if has b 16 then T_66 else 0), if has b 8 then 0xFE else 0xFF).
Lemma inc_fun e d op : isREG d = true -> opIncDec d op e =
  (opROO d op (OReg (regOf e REG (getBit d) false)) (fst (incty (getBit d))) (snd (incty (getBit d))) 0 NONE ;;; ret tt).
Proof. intros R. unfold opIncDec. rewrite R. reflexivity. Qed.
Lemma adcx_fun r op env pos its u : hasRex2NFZU op || hasRex2NFZU (OReg r) = true -> emits (i_adcx_eo r op) env pos its u ->
  emits (opROO noReg op (OReg r) T_66 0x66 0 NONE) env pos its true.
Proof.
  intros X H. unfold i_adcx_eo in H. apply emits_fn in H.
  match type of H with emits (if ?c then _ else _) _ _ _ _ => destruct c; [apply emits_throw in H; contradiction|] end.
  exact (nod_done _ _ _ _ _ _ _ _ _ X H).
Qed.
Lemma adox_fun r op env pos its u : hasRex2NFZU op || hasRex2NFZU (OReg r) = true -> emits (i_adox_eo r op) env pos its u ->
  emits (opROO noReg op (OReg r) T_F3 0x66 0 NONE) env pos its true.
Proof.
  intros X H. unfold i_adox_eo in H. apply emits_fn in H.
  match type of H with emits (if ?c then _ else _) _ _ _ _ => destruct c; [apply emits_throw in H; contradiction|] end.
  exact (nod_done _ _ _ _ _ _ _ _ _ X H).
Qed.
Lemma crc_fun a b code : code = (0xF0 ||| (if has b 8 then 0 else 1)) -> forall r op env pos its u, hasRex2NFZU op || hasRex2NFZU (OReg r) = true ->
  bit_ r = a -> bit_ (ob op) = b -> emits (i_crc32 r op) env pos its u ->
  emits (opROO noReg op (OReg r) (T_APX ||| ((if has b 16 then T_66 else 0) ||| T_ALLOW_DIFF_SIZE)) code 0 NONE) env pos its true.
Proof.
  intros -> r op env pos its u X A B H. unfold i_crc32 in H. apply emits_fn in H.
  match type of H with emits (if ?c then _ else _) _ _ _ _ => destruct c; [apply emits_throw in H; contradiction|] end.
  cbv zeta in H. unfold isBit in H. rewrite B in H. exact (nod_done _ _ _ _ _ _ _ _ _ X H).
Qed.
'''
def main():
    half = [i for i, e in enumerate(E) if e[0] == 'cmovo/rro'][0]
    out = [HEAD, FACTS]
    def tab(name, es):
        out.append('Definition %s : list aentry := [' % name)
        for i, (n, sig, x, f, rows, pr) in enumerate(es):
            out.append('  mkAE "%s" %s %s (%s)\n    %s%s' % (n, sig, x, f, rows, ';' if i < len(es) - 1 else ''))
        out.append('].')
        out.append('Lemma %s_ok : Forall aimplements %s.\nProof.\n  unfold %s.' % (name, name, name))
        for (n, sig, x, f, rows, pr) in es:
            out.append('  apply Forall_cons. { %s. }' % pr)
        out.append('  constructor.\nQed.\n')
    tab('apx_arith', E[:half])
    tab('apx_cond', E[half:])
    out.append('Definition apx_table : list aentry := apx_arith ++ apx_cond.')
    out.append('Lemma apx_table_ok : Forall aimplements apx_table.\nProof. apply Forall_app. split; [apply apx_arith_ok | apply apx_cond_ok]. Qed.')
    open('/verif/rocq/theories/ApxTables.v', 'w').write('\n'.join(out) + '\n')
    print(len(E), 'entries; no such method:', ' '.join(missing))
main()
