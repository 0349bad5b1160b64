#!/usr/bin/env python3
"""Generates rocq/theories/LegTables.v: the table of legacy-encoded methods with their rows.

The rows (prefix, map, opcode, /digit) are written here from the Intel SDM, independently of
xbyak_mnemonic.h; each line also names the shape lemma that connects the method with its row.
"""
import sys

# name: prefix map opcode -- xmm, xmm/mem
XM = """
addps NP 1 58; addpd 66 1 58; addss F3 1 58; addsd F2 1 58
mulps NP 1 59; mulpd 66 1 59; mulss F3 1 59; mulsd F2 1 59
subps NP 1 5C; subpd 66 1 5C; subss F3 1 5C; subsd F2 1 5C
minps NP 1 5D; minpd 66 1 5D; minss F3 1 5D; minsd F2 1 5D
divps NP 1 5E; divpd 66 1 5E; divss F3 1 5E; divsd F2 1 5E
maxps NP 1 5F; maxpd 66 1 5F; maxss F3 1 5F; maxsd F2 1 5F
sqrtps NP 1 51; sqrtpd 66 1 51; sqrtss F3 1 51; sqrtsd F2 1 51
rsqrtps NP 1 52; rsqrtss F3 1 52; rcpps NP 1 53; rcpss F3 1 53
andps NP 1 54; andpd 66 1 54; andnps NP 1 55; andnpd 66 1 55
orps NP 1 56; orpd 66 1 56; xorps NP 1 57; xorpd 66 1 57
unpcklps NP 1 14; unpcklpd 66 1 14; unpckhps NP 1 15; unpckhpd 66 1 15
ucomiss NP 1 2E; ucomisd 66 1 2E; comiss NP 1 2F; comisd 66 1 2F
cvtps2pd NP 1 5A; cvtpd2ps 66 1 5A; cvtss2sd F3 1 5A; cvtsd2ss F2 1 5A
cvtdq2ps NP 1 5B; cvtps2dq 66 1 5B; cvttps2dq F3 1 5B
cvttpd2dq 66 1 E6; cvtdq2pd F3 1 E6; cvtpd2dq F2 1 E6
haddpd 66 1 7C; haddps F2 1 7C; hsubpd 66 1 7D; hsubps F2 1 7D
addsubpd 66 1 D0; addsubps F2 1 D0
punpcklqdq 66 1 6C; punpckhqdq 66 1 6D
movddup F2 1 12; movsldup F3 1 12; movshdup F3 1 16
packusdw 66 2 2B; pcmpeqq 66 2 29; pcmpgtq 66 2 37; pmuldq 66 2 28; pmulld 66 2 40
pminsb 66 2 38; pminsd 66 2 39; pminuw 66 2 3A; pminud 66 2 3B
pmaxsb 66 2 3C; pmaxsd 66 2 3D; pmaxuw 66 2 3E; pmaxud 66 2 3F; phminposuw 66 2 41
pblendvb 66 2 10; blendvps 66 2 14; blendvpd 66 2 15; ptest 66 2 17
pmovsxbw 66 2 20; pmovsxbd 66 2 21; pmovsxbq 66 2 22; pmovsxwd 66 2 23; pmovsxwq 66 2 24; pmovsxdq 66 2 25
pmovzxbw 66 2 30; pmovzxbd 66 2 31; pmovzxbq 66 2 32; pmovzxwd 66 2 33; pmovzxwq 66 2 34; pmovzxdq 66 2 35
aesimc 66 2 DB; aesenc 66 2 DC; aesenclast 66 2 DD; aesdec 66 2 DE; aesdeclast 66 2 DF; gf2p8mulb 66 2 CF
"""
# xmm, xmm/mem, imm8
XMI = """
cmpps NP 1 C2; cmppd 66 1 C2; cmpss F3 1 C2; cmpsd_xoi F2 1 C2; shufps NP 1 C6; shufpd 66 1 C6
roundps 66 3 08; roundpd 66 3 09; roundss 66 3 0A; roundsd 66 3 0B
blendps 66 3 0C; blendpd 66 3 0D; pblendw 66 3 0E; insertps 66 3 21; dpps 66 3 40; dppd 66 3 41; mpsadbw 66 3 42
pclmulqdq 66 3 44; pcmpestrm 66 3 60; pcmpestri 66 3 61; pcmpistrm 66 3 62; pcmpistri 66 3 63
aeskeygenassist 66 3 DF; gf2p8affineqb 66 3 CE; gf2p8affineinvqb 66 3 CF
"""
# mm, mm/mem (no prefix) and xmm, xmm/mem (66)
MX = """
punpcklbw 1 60; punpcklwd 1 61; punpckldq 1 62; packsswb 1 63; pcmpgtb 1 64; pcmpgtw 1 65; pcmpgtd 1 66; packuswb 1 67
punpckhbw 1 68; punpckhwd 1 69; punpckhdq 1 6A; packssdw 1 6B; pcmpeqb 1 74; pcmpeqw 1 75; pcmpeqd 1 76
psrlw_mo 1 D1; psrld_mo 1 D2; psrlq_mo 1 D3; paddq 1 D4; pmullw 1 D5; psubusb 1 D8; psubusw 1 D9; pminub 1 DA; pand 1 DB
paddusb 1 DC; paddusw 1 DD; pmaxub 1 DE; pandn 1 DF; pavgb 1 E0; psraw_mo 1 E1; psrad_mo 1 E2; pavgw 1 E3; pmulhuw 1 E4; pmulhw 1 E5
psubsb 1 E8; psubsw 1 E9; pminsw 1 EA; por 1 EB; paddsb 1 EC; paddsw 1 ED; pmaxsw 1 EE; pxor 1 EF
psllw_mo 1 F1; pslld_mo 1 F2; psllq_mo 1 F3; pmuludq 1 F4; pmaddwd 1 F5; psadbw 1 F6; psubb 1 F8; psubw 1 F9; psubd 1 FA; psubq 1 FB
paddb 1 FC; paddw 1 FD; paddd 1 FE
pshufb 2 00; phaddw 2 01; phaddd 2 02; phaddsw 2 03; pmaddubsw 2 04; phsubw 2 05; phsubd 2 06; phsubsw 2 07
psignb 2 08; psignw 2 09; psignd 2 0A; pmulhrsw 2 0B; pabsb 2 1C; pabsw 2 1D; pabsd 2 1E
"""
MXI = "palignr 3 0F"
# xmm, xmm/mem through opMMX
MXX = """
movups_xo NP 1 10; movupd_xo 66 1 10; movss_xo F3 1 10; movsd_xo F2 1 10; movaps_xo NP 1 28; movapd_xo 66 1 28
movdqa_xo 66 1 6F; movdqu_xo F3 1 6F
"""
MXXI = "pshufd 66 1 70; pshufhw F3 1 70; pshuflw F2 1 70"
MMI = "pshufw 1 70"
# cmp pseudo operations: predicate number
CMP = ["eq", "lt", "le", "unord", "neq", "nlt", "nle", "ord"]

PP = {"NP": "NP", "66": "P66", "F3": "PF3", "F2": "PF2"}
out = []
tables = []


def items(t):
    for x in t.replace("\n", ";").split(";"):
        x = x.split()
        if x:
            yield x


def disp(n):
    return n.split("_")[0]


def emit(name, entry, proof):
    out.append(f"Definition e_{name} := {entry}.\nLemma l_{name} : limplements e_{name}.\nProof. {proof} Qed.")
    tables.append(name)


def q(n):
    return '"%s"%%string' % disp(n)


def xr(p, m, o, w="OsN", i="I_none"):
    return f"xrow {PP[p]} {m} 0x{o} {w} {i}"


def mr(m, o, i="I_none"):
    return f"mrow NP {m} 0x{o} {i}"


def gen():
    for n, p, m, o in items(XM):
        emit(n, f"mkLE {q(n)} [tX; tOx] (ro i_{n}) [{xr(p, m, o)}]", f"eapply xm_entry; [intros; reflexivity|chk].")
    for n, p, m, o in items(XMI):
        emit(n, f"mkLE {q(n)} [tX; tOx] (roi i_{n}) [{xr(p, m, o, i='I_8')}]", "eapply xmi_entry; [intros; reflexivity|imm8|chk].")
    for n, m, o in items(MX):
        emit(n, f"mkLE {q(n)} [tM; tOx] (ro i_{n}) [{mr(m, o)}; {xr('66', m, o)}]", "eapply mx_entry; [intros; reflexivity|chk|chk].")
    for n, m, o in items(MXI):
        emit(n, f"mkLE {q(n)} [tM; tOx] (roi i_{n}) [{mr(m, o, 'I_8')}; {xr('66', m, o, i='I_8')}]", "eapply mxi_entry; [intros; reflexivity|imm8|chk|chk].")
    for n, p, m, o in items(MXX):
        emit(n, f"mkLE {q(n)} [tX; tOx] (ro i_{n}) [{xr(p, m, o)}]", "eapply mxx_entry; [intros; reflexivity|chk].")
    for n, p, m, o in items(MXXI):
        emit(n, f"mkLE {q(n)} [tX; tOx] (roi i_{n}) [{xr(p, m, o, i='I_8')}]", "eapply mxxi_entry; [intros; reflexivity|imm8|chk].")
    for n, m, o in items(MMI):
        emit(n, f"mkLE {q(n)} [tMm; tOx] (roi i_{n}) [{mr(m, o, 'I_8')}]", "eapply mmi_entry; [intros; reflexivity|imm8|chk].")


# ---- general registers ----
# condition codes (SDM vol. 1, appendix B)
CC = {0: "o", 1: "no", 2: "b c nae", 3: "ae nb nc", 4: "e z", 5: "ne nz", 6: "be na", 7: "a nbe", 8: "s", 9: "ns",
      10: "p pe", 11: "np po", 12: "l nge", 13: "ge nl", 14: "le ng", 15: "g nle"}
ALU = ["add", "or_", "adc", "sbb", "and_", "sub", "xor_", "cmp"]
SHIFT = {"rol": 0, "ror": 1, "rcl": 2, "rcr": 3, "shl": 4, "sal": 4, "shr": 5, "sar": 7}


def gen_gpr():
    U = "intros; reflexivity"
    for c, names in CC.items():
        for n in names.split():
            emit(f"cmov{n}_ro", f"mkLE {q('cmov' + n)} [tGv; tO] (ro i_cmov{n}_ro) [rorow NP 1 0x{0x40 + c:X} Sv Sv OsV I_none]", f"eapply cmov_entry; [{U}|chk].")
            emit(f"set{n}", f"mkLE {q('set' + n)} [tOl [0; 8]] (f_o i_set{n}) [mkL NP 1 (0x90 + {c}) true (Some 0) [rm_ KG true (Sn 8)] OsN I_none]", f"eapply setcc_entry; [{U}|chk].")
    for n, o in [("bsf", "BC"), ("bsr", "BD")]:
        emit(n, f"mkLE {q(n)} [tGv; tO] (ro i_{n}) [rorow NP 1 0x{o} Sv Sv OsV I_none]", f"eapply cmov_entry; [{U}|chk].")
    emit("imul_ro", f"mkLE {q('imul')} [tGl; tOl all_sizes] (ro i_imul_ro) [rorow NP 1 0xAF Sv Sv OsV I_none]", f"eapply imul_entry; [{U}|reflexivity|chk].")
    for n, o in [("bt", "A3"), ("bts", "AB"), ("btr", "B3"), ("btc", "BB")]:
        emit(n + "_or", f"mkLE {q(n)} [tO; tGv] (or_ i_{n}_or) [orrow NP 1 0x{o} Sv Sv OsV I_none]", f"eapply bt_entry; [{U}|chk].")
    emit("popcnt", f"mkLE {q('popcnt')} [tG; tO] (ro i_popcnt) [rorow PF3 1 0xB8 Sv Sv OsV I_none]", f"eapply cnt_entry; [{U}|chk].")
    for n, o in [("lzcnt", "BD"), ("tzcnt", "BC")]:
        emit(n, f"mkLE {q(n)} [tGl; tOl all_sizes] (ro i_{n}) [rorow PF3 1 0x{o} Sv Sv OsV I_none]", f"eapply cntl_entry; [{U}|reflexivity|chk].")
    for n, o in [("movzx", "B6"), ("movsx", "BE")]:
        emit(n, f"mkLE {q(n)} [tG; tOp [8; 16]] (ro i_{n}) [rorow NP 1 0x{o} Sv (Sn 8) OsV I_none; rorow NP 1 (0x{o} + 1) Sv (Sn 16) OsV I_none]", f"eapply movxx_entry; [{U}|chk|chk].")
    emit("movsxd", f"mkLE {q('movsxd')} [tR 64; tE] (ro i_movsxd) [mkL NP 0 0x63 true None [r_ KG (Sn 64); rm_ KG true (Sn 32)] Os1 I_none]", f"eapply movsxd_entry; {U}.")
    for n, o in [("xadd", "C0"), ("cmpxchg", "B0")]:
        emit(n, f"mkLE {q(n)} [tE; tG] (or_ i_{n}) [orrow NP 1 0x{o} Sv Sv OsB I_none]",
             f"eapply (brow_entry _ _ tE NP 1 0x{o} T_0F (0x{o} ||| 0) (0x{o} ||| 1)); [intros op r; unfold i_{n}; destruct (isBit r 8); reflexivity|reflexivity|chk|chk].")
    emit("test_or", f"mkLE {q('test')} [tO; tG] (or_ test_) [orrow NP 0 0x84 Sv Sv OsB I_none]", f"eapply test_entry; [{U}|chk].")
    for d, n in enumerate(ALU):
        o = 8 * d
        emit(n + "_oo", f"mkLE {q(n)} [tO; tE] (f_oo i_{n}_oo) (mr_rows 0x{o:02X})", f"eapply romr_entry; [{U}|chk|chk].")
        emit(n + "_oi", f"mkLE {q(n)} [tOp [0; 8; 16; 32; 64]] (f_oi i_{n}_oi) (alu_rows {d})", f"eapply alu_entry; [{U}|lia|reflexivity|chk|chk|chk].")
    emit("mov_oo", f"mkLE {q('mov')} [tO; tE] (f_oo mov_oo) (mr_rows 0x88)", f"eapply mov_entry; {U}.")
    emit("lea", f"mkLE {q('lea')} [tG; tA] (ra i_lea) [mkL NP 0 0x8D true None [r_ KG Sv; rm_ KG true Sany] OsV I_none]", f"eapply lea_entry; {U}.")
    for n, p, m, o in [("movnti", "NP", 1, "C3"), ("aadd", "NP", 2, "FC"), ("aand", "P66", 2, "FC"), ("aor", "PF2", 2, "FC"), ("axor", "PF3", 2, "FC"), ("movdiri", "NP", 2, "F9")]:
        emit(n, f"mkLE {q(n)} [tAl; tEe] (ar i_{n}) [mkL {p} {m} 0x{o} true None [rm_ KG true Sv; r_ KG Sv] OsY I_none]", f"eapply are_entry; [{U}|reflexivity|chk].")
    emit("movbe_ra", f"mkLE {q('movbe')} [tGl; tAl] (ra i_movbe_ra) [rorow NP 2 0xF0 Sv Sv OsV I_none]", f"eapply movbe_entry; [{U}|reflexivity|chk].")
    emit("movbe_ar", f"mkLE {q('movbe')} [tAl; tGl] (ar i_movbe_ar) [mkL NP 2 0xF1 true None [rm_ KG true Sv; r_ KG Sv] OsV I_none]", f"eapply ar_entry; [{U}|reflexivity|chk|exact tGl_v].")
    for n, p in [("adcx", "P66"), ("adox", "PF3")]:
        emit(n + "_eo", f"mkLE {q(n)} [tEe; tEl] (ro i_{n}_eo) [rorow {p} 2 0xF6 Sv Sv OsY I_none]", f"eapply adx_entry; [{U}|reflexivity|chk].")
    emit("crc32", f"mkLE {q('crc32')} [tEe; tEl] (ro i_crc32) crc_rows", f"eapply crc_entry; [{U}|intros []; reflexivity].")
    for n, d in [("not__o", 2), ("neg_o", 3), ("mul", 4), ("imul_o", 5), ("div", 6), ("idiv", 7)]:
        emit(n, f"mkLE {q(n)} [tOl [8; 16; 32; 64]] (f_o i_{n}) [rmrow NP 0 0xF6 {d} OsB I_none]", f"eapply (ext1_entry _ _ _ _ _ _ _ _ (fun _ b => w_in OsB b) (fun _ b => b)); [{U}|lia|reflexivity|reflexivity|reflexivity|chk|sizes|sizes].")
    for n, d in [("inc", 0), ("dec", 1)]:
        emit(n + "_o", f"mkLE {q(n)} [tOp [0; 8; 16; 32; 64]] (f_o i_{n}_o) [rmrow NP 0 0xFE {d} OsB I_none]", f"eapply inc_entry; [{U}|lia|chk].")
    for n, d in SHIFT.items():
        emit(n + "_oi", f"mkLE {q(n)} [tOl [0; 8; 16; 32; 64]] (f_oi i_{n}_oi) (shift_rows {d})", f"eapply shift_entry; [{U}|lia|reflexivity|reflexivity|chk|chk].")
        emit(n + "_ob", f"mkLE {q(n)} [tOl [8; 16; 32; 64]; tR 8] (or_ i_{n}_ob) [clrow {d}]", f"eapply shiftcl_entry; [{U}|lia|reflexivity|reflexivity|chk].")


HEAD2 = """(* Generated by tools/legtab.py.  Methods for general registers with their instruction rows (written from
   the Intel SDM vol. 2), and the proof that each method implements its rows. *)
From Coq Require Import ZArith List Bool String Lia.
From Verif Require Import Base Types Emit Encode Mnemonic SpecX86 SpecAddr SpecIsa SpecInsn SpecLeg Wf EmitFacts LegFacts LegShapes LegGpr LegGpr2 LegGpr3.
Import ListNotations.
Open Scope Z_scope.
Ltac chk := vm_compute; reflexivity.
Ltac sizes := let b := fresh in let H := fresh in intros b H; cbn in H; repeat (destruct H as [H|H]; [rewrite <- H; reflexivity|]); destruct H.
"""

HEAD = """(* Generated by tools/legtab.py.  Legacy-encoded methods of xbyak_mnemonic.h with their instruction rows
   (written from the Intel SDM vol. 2), and the proof that each method implements its rows. *)
From Coq Require Import ZArith List Bool String Lia.
From Verif Require Import Base Types Emit Encode Mnemonic SpecX86 SpecAddr SpecIsa SpecInsn SpecLeg Wf EmitFacts LegFacts LegShapes.
Import ListNotations.
Open Scope Z_scope.
Ltac chk := vm_compute; reflexivity.
"""


def table(path, head, name):
    s = head + "\n".join(out) + "\n"
    s += f"Definition {name} : list lentry := [\n  " + ";\n  ".join("; ".join("e_" + n for n in tables[i:i + 8]) for i in range(0, len(tables), 8)) + "].\n"
    s += f"Lemma {name}_ok : Forall limplements {name}.\nProof.\n  unfold {name}.\n"
    s += "".join(f"  apply Forall_cons; [exact l_{n}|].\n" for n in tables) + "  apply Forall_nil.\nQed.\n"
    open(path, "w").write(s)
    print(path, len(tables), "entries")
    out.clear()
    tables.clear()


def main():
    d = sys.argv[1] if len(sys.argv) > 1 else "/verif/rocq/theories"
    gen()
    table(d + "/LegTables.v", HEAD, "legacy_table")
    gen_gpr()
    table(d + "/LegTables2.v", HEAD2, "gpr_table")


if __name__ == "__main__":
    main()
