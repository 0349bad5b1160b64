#!/usr/bin/env python3
"""Write MixTables.v: rows of the remaining legacy-encoded instructions (from the SDM) and, per method, the proof that it
implements them."""
import sys
ALL = "[0; 8; 16; 32; 64; 128; 256; 512]"
N16 = "[0; 8; 32; 64; 128; 256; 512]"
PP = {"": "NP", "66": "P66", "F2": "PF2", "F3": "PF3"}
MAP = {"": 0, "0F": 1, "0F38": 2, "0F3A": 3}
def row(pp, m, opc, ops, osz="Os0", digit=None, imm="I_none"):
    return "mkL %s %d 0x%02X true %s [%s] %s %s" % (PP[pp], MAP[m], opc, "(Some %d)" % digit if digit is not None else "None", "; ".join(ops), osz, imm)
rx, rm = "r_ KX Sany", "r_ KM Sany"
def rmo(k, mem, s="Sany"): return "rm_ %s %s %s" % (k, "true" if mem else "false", s)
E = []   # (name, sig, fun, rows, proof)
def ent(name, sig, fun, rows, proof): E.append((name, sig, fun, rows, proof))

# ---- one address, digit ----
def dg(name, pp, m, opc, d, w=32, meth=None):
    T = {"": "T_NONE", "66": "T_66"}
    ent(name, "[aM %s]" % ALL, "f_a i_%s" % name, [row(pp, m, opc, ["m_ Sany"], "Os0" if w == 32 else "Os1", d)], "dgt %d %d" % (d, w))
for n, d in [("cldemote", 0)]: dg(n, "", "0F", 0x1C, d)
dg("clflush", "", "0F", 0xAE, 7); dg("clflushopt", "66", "0F", 0xAE, 7); dg("clwb", "66", "0F", 0xAE, 6)
dg("cmpxchg8b", "", "0F", 0xC7, 1); dg("cmpxchg16b", "", "0F", 0xC7, 1, 64)
dg("fxrstor", "", "0F", 0xAE, 1); dg("fxrstor64", "", "0F", 0xAE, 1, 64); dg("ldmxcsr", "", "0F", 0xAE, 2); dg("stmxcsr", "", "0F", 0xAE, 3)
for n, d in [("prefetchnta", 0), ("prefetcht0", 1), ("prefetcht1", 2), ("prefetcht2", 3), ("prefetchit1", 6), ("prefetchit0", 7)]: dg(n, "", "0F", 0x18, d)
dg("prefetchw", "", "0F", 0x0D, 1); dg("prefetchwt1", "", "0F", 0x0D, 2)
dg("fbld", "", "", 0xDF, 4); dg("fbstp", "", "", 0xDF, 6); dg("fldcw", "", "", 0xD9, 5); dg("fldenv", "", "", 0xD9, 4); dg("fnsave", "", "", 0xDD, 6)
dg("fnstcw", "", "", 0xD9, 7); dg("fnstenv", "", "", 0xD9, 6); dg("fnstsw_a", "", "", 0xDD, 7); dg("frstor", "", "", 0xDD, 4)

# ---- conversions between files, any operands ----
def conv(name, pp, opc, k1, k2, v, s1="Sany", s2="Sany", osz="Os0", mems=N16, rows=None):
    ent(name, "[aAny; anyM %s]" % mems, "f_ro i_%s" % name, rows or [row(pp, "0F", opc, ["r_ %s %s" % (k1, s1), rmo(k2, True, s2)], osz)], "anyt %s (@None bool) [SReg; SRm]" % v)
conv("cvtpd2pi", "66", 0x2D, "KM", "KX", "vf_mx", mems=ALL); conv("cvttpd2pi", "66", 0x2C, "KM", "KX", "vf_mx", mems=ALL)
conv("cvtps2pi", "", 0x2D, "KM", "KX", "vf_mx", mems=ALL); conv("cvttps2pi", "", 0x2C, "KM", "KX", "vf_mx", mems=ALL)
conv("cvtpi2pd", "66", 0x2A, "KX", "KM", "vf_xm", mems=ALL); conv("cvtpi2ps", "", 0x2A, "KX", "KM", "vf_xm")
for n, pp, opc in [("cvtsd2si", "F2", 0x2D), ("cvttsd2si", "F2", 0x2C), ("cvtss2si", "F3", 0x2D), ("cvttss2si", "F3", 0x2C)]:
    conv(n, pp, opc, "KG", "KX", "vf_gx", s1="Sv", osz="OsY", mems=ALL)
for n, pp in [("cvtsi2sd", "F2"), ("cvtsi2ss", "F3")]:
    conv(n, pp, 0x2A, "KX", "KG", "vf_xg", mems="[0; 32]", rows=[row(pp, "0F", 0x2A, [rx, rmo("KG", False, "Sv")], "OsY"), row(pp, "0F", 0x2A, [rx, "m_ (Sn 32)"], "Os0")])

# ---- two registers ----
def rr(name, pp, opc, c1, c2, o1, o2, osz="Os0"):
    ent(name, "[%s; %s]" % (c1, c2), "f_rr i_%s" % name, [row(pp, "0F", opc, [o1, o2], osz)], "sset (@None bool) [SReg; SRm]")
rr("maskmovdqu", "66", 0xF7, "aX", "aX", rx, rmo("KX", False)); rr("maskmovq", "", 0xF7, "aMm", "aMm", rm, rmo("KM", False))
rr("movdq2q", "F2", 0xD6, "aMm", "aX", rm, rmo("KX", False)); rr("movq2dq", "F3", 0xD6, "aX", "aMm", rx, rmo("KM", False))
rr("movhlps", "", 0x12, "aX", "aX", rx, rmo("KX", False)); rr("movlhps", "", 0x16, "aX", "aX", rx, rmo("KX", False))
rr("movmskps", "", 0x50, "aR [32; 64]", "aX", "r_ KG Sany", rmo("KX", False), "OsN")

# ---- a register and an address ----
def ra(name, pp, m, opc): ent(name, "[aX; aM %s]" % (ALL if pp == "66" else N16), "f_ra i_%s" % name, [row(pp, m, opc, [rx, "m_ Sany"])], "sset (@None bool) [SReg; SRm]")
def ar(name, pp, m, opc): ent(name, "[aM %s; aX]" % (ALL if pp == "66" else N16), "f_ar i_%s" % name, [row(pp, m, opc, ["m_ Sany", rx])], "sset (@None bool) [SRm; SReg]")
ra("lddqu", "F2", "0F", 0xF0); ra("movntdqa", "66", "0F38", 0x2A)
for n, pp, opc in [("movaps", "", 0x29), ("movapd", "66", 0x29), ("movups", "", 0x11), ("movupd", "66", 0x11), ("movdqa", "66", 0x7F), ("movdqu", "F3", 0x7F), ("movss", "F3", 0x11), ("movsd", "F2", 0x11)]:
    ar(n + "_ax", pp, "0F", opc)
ent("movntdq", "[aM %s; aX]" % ALL, "f_ar i_movntdq", [row("66", "0F", 0xE7, ["m_ Sany", rx])], "st16 i_movntdq")
ent("movntpd", "[aM %s; aX]" % ALL, "f_ar i_movntpd", [row("66", "0F", 0x2B, ["m_ Sany", rx])], "st16 i_movntpd")
ent("movntps", "[aM %s; aX]" % N16, "f_ar i_movntps", [row("", "0F", 0x2B, ["m_ Sany", rx])], "stx i_movntps")
ent("movntq", "[aM %s; aMm]" % ALL, "f_ar i_movntq", [row("", "0F", 0xE7, ["m_ Sany", rm])], "chk2 (@None bool) [SRm; SReg] (on_mem i_movntq)")

# ---- prefix 66 / F3 emitted by the method for xmm registers ----
def two(pp, m, opc, mk, osz): return [row("", m, opc, mk("KM"), osz), row(pp, m, opc, mk("KX"), osz)]
r = lambda k, s="Sany": "r_ %s %s" % (k, s)
mm = "aOr aMm aX"
ent("movd_mo", "[%s; aOr (aR [32]) (aM [0; 32])]" % mm, "f_ro i_movd_mo", two("66", "0F", 0x6E, lambda k: [r(k), rmo("KG", True, "(Sn 32)")], "Os0"), "orp P66 0x66 i_movd_mo (@None bool) [SReg; SRm] (on_op i_movd_mo)")
ent("movd_om", "[aOr (aR [32]) (aM [0; 32]); %s]" % mm, "f_or i_movd_om", two("66", "0F", 0x7E, lambda k: [rmo("KG", True, "(Sn 32)"), r(k)], "Os0"), "orp P66 0x66 i_movd_om (@None bool) [SRm; SReg] (op_on i_movd_om)")
ent("movq_mq", "[%s; aR [64]]" % mm, "f_rr i_movq_mq", two("66", "0F", 0x6E, lambda k: [r(k), rmo("KG", False, "(Sn 64)")], "Os1"), "orp P66 0x66 i_movq_mq (@None bool) [SReg; SRm] (on_reg i_movq_mq)")
ent("movq_qm", "[aR [64]; %s]" % mm, "f_rr i_movq_qm", two("66", "0F", 0x7E, lambda k: [rmo("KG", False, "(Sn 64)"), r(k)], "Os1"), "orp P66 0x66 i_movq_qm (@None bool) [SRm; SReg] (reg_on i_movq_qm)")
ent("movq_mo", "[%s; aOr (%s) (aM [0; 64])]" % (mm, mm), "f_ro i_movq_mo", [row("", "0F", 0x6F, [rm, rmo("KM", True, "(Sn 64)")]), row("F3", "0F", 0x7E, [rx, rmo("KX", True)])], "movqt i_movq_mo")
ent("movq_am", "[aM [0; 64]; %s]" % mm, "f_ar i_movq_am", [row("", "0F", 0x7F, ["m_ (Sn 64)", rm]), row("66", "0F", 0xD6, ["m_ (Sn 64)", rx])], "orp P66 0x66 i_movq_am (@None bool) [SRm; SReg] (on_mem i_movq_am)")
ent("pmovmskb", "[aR [32; 64]; %s]" % mm, "f_rr i_pmovmskb", two("66", "0F", 0xD7, lambda k: [r("KG"), rmo(k, False)], "OsN"), "orq P66 0x66 i_pmovmskb (@None bool) [SReg; SRm] (on_reg i_pmovmskb)")
ent("movmskpd", "[aR [32; 64]; aX]", "f_rr i_movmskpd", [row("66", "0F", 0x50, [r("KG"), rmo("KX", False)], "OsN")], "prt P66 0x66 i_movmskpd (@None bool) [SReg; SRm] (on_reg i_movmskpd)")

# ---- insert, extract ----
def x8(m, opc, ops, osz): return row("66", m, opc, ops, osz, None, "I_8")
ent("pinsrb", "[aAny; anyM %s]" % ALL, "f_roi i_pinsrb", [x8("0F3A", 0x20, [rx, rmo("KG", True)], "OsN")], "anyt vf_xg (Some true) [SReg; SRm]")
ent("pinsrd", "[aX; aOr (aR [32]) (aM [0; 32])]", "f_roi i_pinsrd", [x8("0F3A", 0x22, [rx, rmo("KG", True, "(Sn 32)")], "Os0")], "sset (Some true) [SReg; SRm]")
ent("pinsrw", "[aX; aOr (aR [32]) (aM %s)]" % ALL, "f_roi i_pinsrw", [x8("0F", 0xC4, [rx, rmo("KG", True)], "OsN")], "pwt i_pinsrw")
ent("pinsrw", "[aMm; aOr (aR [32]) (aM %s)]" % ALL, "f_roi i_pinsrw", [row("", "0F", 0xC4, [rm, rmo("KG", True)], "OsN", None, "I_8")], "pwt i_pinsrw")
ent("pinsrq", "[aX; aOr (aR [64]) (aM %s)]" % ALL, "f_roi i_pinsrq", [x8("0F3A", 0x22, [rx, rmo("KG", True, "(Sn 64)")], "Os1")], "st64 i_pinsrq [SReg; SRm] (on_opi i_pinsrq)")
ent("pextrq", "[aOr (aR [64]) (aM %s); aX]" % ALL, "f_ori i_pextrq", [x8("0F3A", 0x16, [rmo("KG", True, "(Sn 64)"), rx], "Os1")], "st64 i_pextrq [SRm; SReg] (op_oni i_pextrq)")
ent("pextrb", "[aOr (aR [32; 64]) (aM %s); aX]" % ALL, "f_ori i_pextrb", [x8("0F3A", 0x14, [rmo("KG", True), rx], "OsN")], "ext i_pextrb")
ent("extractps", "[aOr (aR [32; 64]) (aM %s); aX]" % ALL, "f_ori i_extractps", [x8("0F3A", 0x17, [rmo("KG", True), rx], "OsN")], "ext i_extractps")
ent("pextrd", "[aOr (aR [32]) (aM [0; 32]); aX]", "f_ori i_pextrd", [x8("0F3A", 0x16, [rmo("KG", True, "(Sn 32)"), rx], "Os0")], "ext i_pextrd")

# ---- second table ----
E1 = E; E = []
for n, pp, opc in [("movhps", "", 0x16), ("movhpd", "66", 0x16), ("movlps", "", 0x12), ("movlpd", "66", 0x12)]:
    l = ALL if pp else N16
    ent(n, "[aX; aM %s]" % l, "f_oo i_%s" % n, [row(pp, "0F", opc, [rx, "m_ Sany"])], "mvx i_%s [SReg; SRm] (fun r op (_ : Z) => i_%s (OReg r) op)" % (n, n))
    ent(n, "[aM %s; aX]" % l, "f_oo i_%s" % n, [row(pp, "0F", opc + 1, ["m_ Sany", rx])], "mvx i_%s [SRm; SReg] (fun r op (_ : Z) => i_%s op (OReg r))" % (n, n))
for n, opc, d in [("psllw", 0x71, 6), ("pslld", 0x72, 6), ("psllq", 0x73, 6), ("psraw", 0x71, 4), ("psrad", 0x72, 4), ("psrlw", 0x71, 2), ("psrld", 0x72, 2), ("psrlq", 0x73, 2)]:
    ent(n, "[aOr aX aMm]", "f_ri i_%s_mi" % n, [row("66", "0F", opc, [rmo("KX", False)], "Os0", d, "I_8"), row("", "0F", opc, [rmo("KM", False)], "Os0", d, "I_8")], "mmit i_%s_mi" % n)
for n, d in [("pslldq", 7), ("psrldq", 3)]:
    ent(n, "[aX]", "f_ri i_%s" % n, [row("66", "0F", 0x73, [rmo("KX", False)], "Os0", d, "I_8")], "start; mmi i_%s aX" % n)
for n, d in [("rdrand", 6), ("rdseed", 7)]: ent(n, "[aR [16; 32; 64]]", "f_r i_%s" % n, [row("", "0F", 0xC7, [rmo("KG", False, "Sv")], "OsV", d)], "rdt i_%s" % n)
for n, d in [("rdfsbase", 0), ("rdgsbase", 1), ("wrfsbase", 2), ("wrgsbase", 3)]: ent(n, "[aR [32; 64]]", "f_r i_%s" % n, [row("F3", "0F", 0xAE, [rmo("KG", False, "Sv")], "OsY", d)], "fsb i_%s" % n)
ent("senduipi", "[aR [64]]", "f_r i_senduipi", [row("F3", "0F", 0xC7, [rmo("KG", False, "(Sn 64)")], "OsN", 6)], "start; eapply e_uipi; [reflexivity|lia|reflexivity|vm_compute; reflexivity]")
X87 = {"fadd": ("a", {32: (0xD8, 0), 64: (0xDC, 0)}), "fcom": ("a", {32: (0xD8, 2), 64: (0xDC, 2)}), "fcomp": ("a", {32: (0xD8, 3), 64: (0xDC, 3)}),
 "fdiv": ("a", {32: (0xD8, 6), 64: (0xDC, 6)}), "fdivr": ("a", {32: (0xD8, 7), 64: (0xDC, 7)}), "fmul": ("a", {32: (0xD8, 1), 64: (0xDC, 1)}),
 "fsub": ("a", {32: (0xD8, 4), 64: (0xDC, 4)}), "fsubr": ("a", {32: (0xD8, 5), 64: (0xDC, 5)}),
 "fiadd": ("", {16: (0xDE, 0), 32: (0xDA, 0)}), "ficom": ("", {16: (0xDE, 2), 32: (0xDA, 2)}), "ficomp": ("", {16: (0xDE, 3), 32: (0xDA, 3)}),
 "fidiv": ("", {16: (0xDE, 6), 32: (0xDA, 6)}), "fidivr": ("", {16: (0xDE, 7), 32: (0xDA, 7)}), "fimul": ("", {16: (0xDE, 1), 32: (0xDA, 1)}),
 "fisub": ("", {16: (0xDE, 4), 32: (0xDA, 4)}), "fisubr": ("", {16: (0xDE, 5), 32: (0xDA, 5)}),
 "fild": ("", {16: (0xDF, 0), 32: (0xDB, 0), 64: (0xDF, 5)}), "fist": ("", {16: (0xDF, 2), 32: (0xDB, 2)}), "fistp": ("", {16: (0xDF, 3), 32: (0xDB, 3), 64: (0xDF, 7)}),
 "fisttp": ("", {16: (0xDF, 1), 32: (0xDB, 1), 64: (0xDD, 1)}), "fld": ("a", {32: (0xD9, 0), 64: (0xDD, 0)}), "fst": ("a", {32: (0xD9, 2), 64: (0xDD, 2)}), "fstp": ("a", {32: (0xD9, 3), 64: (0xDD, 3)})}
for n, (suf, forms) in X87.items():
    ent(n, "[aM %s]" % ALL, "f_a i_%s%s" % (n, "_" + suf if suf else ""), [row("", "", opc, ["m_ (Sn %d)" % b], "Os0", d) for b, (opc, d) in sorted(forms.items())], "fput")
for n, pp, opc in [("bndcl", "F3", 0x1A), ("bndcu", "F2", 0x1A), ("bndcn", "F2", 0x1B)]:
    ent(n, "[aB; aOr (aR [8; 16; 32; 64]) (aM %s)]" % N16, "f_ro i_%s" % n, [row(pp, "0F", opc, ["r_ KB Sany", rmo("KG", True)], "OsN")], "bndct")
ent("bndmk", "[aB; aM %s]" % N16, "f_ra i_bndmk", [row("F3", "0F", 0x1B, ["r_ KB Sany", "m_ Sany"], "OsN")], "bnt i_bndmk [SReg; SRm] (on_mem (fun a r => i_bndmk r a))")
ent("bndmov", "[aM %s; aB]" % ALL, "f_ar i_bndmov_an", [row("66", "0F", 0x1B, ["m_ Sany", "r_ KB Sany"], "OsN")], "bnt i_bndmov_an [SRm; SReg] (on_mem i_bndmov_an)")
ent("bndmov", "[aB; aOr aB (aM %s)]" % ALL, "f_ro i_bndmov_no", [row("66", "0F", 0x1A, ["r_ KB Sany", rmo("KB", True)], "OsN")], "bnt i_bndmov_no [SReg; SRm] (on_op i_bndmov_no)")
ent("bndldx", "[aB; aM %s]" % N16, "f_ra i_bndldx", [row("", "0F", 0x1A, ["r_ KB Sany", "m_ Sany"], "OsN")], "start; refine (e_mib _ _ [SReg; SRm] _ _ _ _ (on_mem (fun a r => i_bndldx r a)) _ _ _); [fnis2|reflexivity|vm_compute; reflexivity]")
ent("bndstx", "[aM %s; aB]" % N16, "f_ar i_bndstx", [row("", "0F", 0x1B, ["m_ Sany", "r_ KB Sany"], "OsN")], "start; refine (e_mib _ _ [SRm; SReg] _ _ _ _ (on_mem i_bndstx) _ _ _); [fnis2|reflexivity|vm_compute; reflexivity]")
for n, opc in [("lss", 0xB2), ("lfs", 0xB4), ("lgs", 0xB5)]:
    ent(n, "[aLow (aR [16; 32; 64]); aLow (aM [0])]", "f_ra i_%s" % n, [row("", "0F", opc, ["r_ KG Sv", "m_ Sany"], "OsV")], "lfst i_%s" % n)
for n, opc in [("sha1nexte", 0xC8), ("sha1msg1", 0xC9), ("sha1msg2", 0xCA), ("sha256rnds2", 0xCB), ("sha256msg1", 0xCC), ("sha256msg2", 0xCD)]:
    ent(n, "[aX; aLow (aOr aX (aM %s))]" % N16, "f_ro i_%s" % n, [row("", "0F38", opc, [rx, rmo("KX", True)])], "apxt i_%s (@None bool) (on_op i_%s)" % (n, n))
ent("sha1rnds4", "[aX; aLow (aOr aX (aM %s))]" % N16, "f_roi i_sha1rnds4", [row("", "0F3A", 0xCC, [rx, rmo("KX", True)], "Os0", None, "I_8")], "apxt i_sha1rnds4 (Some true) (on_opi i_sha1rnds4)")
for n, opc in [("aesenc128kl", 0xDC), ("aesdec128kl", 0xDD), ("aesenc256kl", 0xDE), ("aesdec256kl", 0xDF)]:
    ent(n, "[aX; aLow (aM %s)]" % N16, "f_ra i_%s" % n, [row("F3", "0F38", opc, [rx, "m_ Sany"])], "apxt i_%s (@None bool) (on_mem (fun a r => i_%s r a))" % (n, n))
for n, d in [("aesencwide128kl", 0), ("aesdecwide128kl", 1), ("aesencwide256kl", 2), ("aesdecwide256kl", 3)]:
    ent(n, "[aLow (aM %s)]" % N16, "f_a i_%s" % n, [row("F3", "0F38", 0xD8, ["m_ Sany"], "Os0", d)], "start; eapply e_wide; [reflexivity|vm_compute; reflexivity]")
for n, d in [("bt", 4), ("bts", 5), ("btr", 6), ("btc", 7)]:
    ent(n, "[anyM [16; 32; 64]]", "f_oi i_%s_oi" % n, [row("", "0F", 0xBA, [rmo("KG", True, "Sv")], "OsV", d, "I_8")], "start; apply e_bti; [lia|reflexivity|vm_compute; reflexivity]")
ent("movdir64b", "[aLow (aR [64]); aLow (aM %s)]" % ALL, "f_ra i_movdir64b", [row("66", "0F38", 0xF8, ["r_ KG (Sn 64)", "m_ Sany"], "OsN")], "start; apply movdir64b_ok; [reflexivity|vm_compute; reflexivity]")
ent("pextrw", "[aR [32; 64]; aX]", "f_ori i_pextrw", [x8("0F", 0xC5, ["r_ KG Sany", rmo("KX", False)], "OsN")],
    "start; apply (pextrw_reg aX P66 KX 128 _ (%s)); [left; auto 6|reflexivity|reflexivity|vm_compute; reflexivity]" % row("", "0F", 0xC5, ["r_ KG Sany", rmo("KX", False)], "OsN", None, "I_8"))
ent("pextrw", "[aR [32; 64]; aMm]", "f_ori i_pextrw", [row("", "0F", 0xC5, ["r_ KG Sany", rmo("KM", False)], "OsN", None, "I_8")],
    "start; eapply (pextrw_reg aMm NP KM 64); [right; repeat split; reflexivity|reflexivity|reflexivity|vm_compute; reflexivity]")
def io(n, fun, opc, ops, sig, imm, lem): ent(n, sig, fun, ["mkL NP 0 0x%02X false None [%s] OsB %s" % (opc, ops, imm)], "exact " + lem)
g4 = "aR [8; 16; 32; 64]"; dx = "mkOper (Implied 2) (Some KG) false (Sn 16)"
io("in_", "f_rr i_in__rr", 0xEC, "acc_ Sv; " + dx, "[%s; %s]" % (g4, g4), "I_none", "in_dx")
io("out_", "f_rr i_out__rr", 0xEE, dx + "; acc_ Sv", "[%s; %s]" % (g4, g4), "I_none", "out_dx")
io("in_", "f_ri i_in__ri", 0xE4, "acc_ Sv", "[%s]" % g4, "I_8", "in_imm")
io("out_", "f_ri (fun a v => i_out__ir v a)", 0xE6, "acc_ Sv", "[%s]" % g4, "I_8", "out_imm")
E2 = E; E = []
for n, opc, d in [("fsave", 0xDD, 6), ("fstcw", 0xD9, 7), ("fstenv", 0xD9, 6), ("fstsw_a", 0xDD, 7)]:
    ent(n, "[aM %s]" % ALL, "f_a i_%s" % n, [row("", "", opc, ["m_ Sany"], "Os0", d)], "waitt %d" % d)
EW = E; E = E1
HEAD = '''(* Generated by tools/mixtab.py: remaining legacy-encoded instructions, the forms of the Intel SDM vol. 2. *)
From Coq Require Import ZArith List Bool String Lia.
From Verif Require Import Base Types Emit Encode Mnemonic SpecX86 SpecAddr SpecIsa SpecInsn SpecLeg SpecMix Wf EmitFacts BitFacts MemFacts LegacyFacts VexFacts EncThms LegFacts LegShapes LegGpr LegGpr2 LegGpr3 SseFacts SseShapes MixTac.
Import ListNotations.
Open Scope Z_scope.
'''
def write(path, head, E, pre, table, prop):
    out = [head]
    for i, (name, sig, fun, rows, proof) in enumerate(E):
        out.append('Definition %se_%d : mentry := mkME "%s"%%string %s (%s)\n  [%s].\nLemma %s_%d : %s %se_%d. Proof. %s. Qed.' % (pre, i, name, sig, fun, ";\n   ".join(rows), pre, i, prop, pre, i, proof))
    out.append("Definition %s_table : list mentry :=\n  [%s]." % (table, "; ".join("%se_%d" % (pre, i) for i in range(len(E)))))
    out.append("Theorem %s_all : Forall %s %s_table.\nProof. unfold %s_table. %s apply Forall_nil. Qed." % (table, prop, table, table, " ".join("apply Forall_cons; [exact %s_%d|]." % (pre, i) for i in range(len(E)))))
    return "\n".join(out) + "\n"
D = "/verif/rocq/theories/"
open(D + "MixTables.v", "w").write(write("", HEAD, E1, "m", "mix", "mimplements"))
open(D + "MixTables2.v", "w").write(write("", HEAD.replace("SseShapes MixTac.", "SseShapes MixTac MixShapes."), E2, "n", "mix2", "mimplements") + write("", "(* forms with WAIT *)", EW, "v", "wait", "wimplements"))
print(len(E1), len(E2), len(EW), "entries")
