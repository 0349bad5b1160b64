#!/usr/bin/env python3
"""VEX / EVEX instruction reference in the notation of the Intel SDM, typed in from the manual's
opcode tables (not derived from xbyak).  Each row:  name/signature  Op/En  VEX form  EVEX form.

 forms       L.pp.map.W opcode[/digit]     L: x y z = 128/256/512, combinations, LIG, L0, L1
             EVEX forms add a tuple: FV16/32/64 (full, broadcast element), FVM, HV/QV+element,
             HVM QVM OVM, Sn (N = n bytes, whatever the length), DUP;  then er / sae
 Op/En       order of the operands: R = ModRM.reg, V = vvvv, M = ModRM.rm, I = imm8, 4 = is4,
             B = bytes that do not come from an operand
"""
ROWS = []
def r(names, enc, vex, evex='-'):
    for n in names.split(): ROWS.append((n, enc, vex, evex))

# --- packed / scalar FP arithmetic
for nm, opc, rc in [('add','58','er'),('mul','59','er'),('sub','5C','er'),('min','5D','sae'),('div','5E','er'),('max','5F','sae')]:
    r('v%sps/xoo' % nm, 'RVM', 'xy.NP.0F.WIG '+opc, 'xyz.NP.0F.W0 %s FV32 %s' % (opc, rc))
    r('v%spd/xoo' % nm, 'RVM', 'xy.66.0F.WIG '+opc, 'xyz.66.0F.W1 %s FV64 %s' % (opc, rc))
    r('v%sss/xoo' % nm, 'RVM', 'LIG.F3.0F.WIG '+opc, 'LIG.F3.0F.W0 %s S4 %s' % (opc, rc))
    r('v%ssd/xoo' % nm, 'RVM', 'LIG.F2.0F.WIG '+opc, 'LIG.F2.0F.W1 %s S8 %s' % (opc, rc))
    r('v%sph/xoo' % nm, 'RVM', '-', 'xyz.NP.MAP5.W0 %s FV16 %s' % (opc, rc))
    r('v%ssh/xoo' % nm, 'RVM', '-', 'LIG.F3.MAP5.W0 %s S2 %s' % (opc, rc))
for nm, opc in [('vaddnepbf16','58'),('vmulnepbf16','59'),('vsubnepbf16','5C'),('vminpbf16','5D'),('vdivnepbf16','5E'),('vmaxpbf16','5F')]:
    r(nm+'/xxo', 'RVM', '-', 'xyz.66.MAP5.W0 %s FV16' % opc)
r('vaddsubpd/xoo','RVM','xy.66.0F.WIG D0'); r('vaddsubps/xoo','RVM','xy.F2.0F.WIG D0')
r('vhaddpd/xoo','RVM','xy.66.0F.WIG 7C'); r('vhaddps/xoo','RVM','xy.F2.0F.WIG 7C')
r('vhsubpd/xoo','RVM','xy.66.0F.WIG 7D'); r('vhsubps/xoo','RVM','xy.F2.0F.WIG 7D')
for nm, opc in [('and','54'),('andn','55'),('or','56'),('xor','57')]:
    r('v%sps/xoo' % nm,'RVM','xy.NP.0F.WIG '+opc,'xyz.NP.0F.W0 %s FV32' % opc)
    r('v%spd/xoo' % nm,'RVM','xy.66.0F.WIG '+opc,'xyz.66.0F.W1 %s FV64' % opc)
for nm, opc in [('enc','DC'),('enclast','DD'),('dec','DE'),('declast','DF')]:
    r('vaes%s/xoo' % nm,'RVM','xy.66.0F38.WIG '+opc,'xyz.66.0F38.WIG %s FVM' % opc)
r('vblendps/xxoi','RVMI','xy.66.0F3A.WIG 0C'); r('vblendpd/xxoi','RVMI','xy.66.0F3A.WIG 0D')
r('vblendvps/xxox','RVM4','xy.66.0F3A.W0 4A'); r('vblendvpd/xxox','RVM4','xy.66.0F3A.W0 4B'); r('vpblendvb/xxox','RVM4','xy.66.0F3A.W0 4C')
r('vcmpps/xxoi','RVMI','xy.NP.0F.WIG C2'); r('vcmppd/xxoi','RVMI','xy.66.0F.WIG C2')
r('vcmpss/xxoi','RVMI','LIG.F3.0F.WIG C2'); r('vcmpsd/xxoi','RVMI','LIG.F2.0F.WIG C2')
r('vcvtsd2si/do','RM','LIG.F2.0F.W0 2D','LIG.F2.0F.W0 2D S8 er'); r('vcvtsd2si/qo','RM','LIG.F2.0F.W1 2D','LIG.F2.0F.W1 2D S8 er')
r('vcvtss2si/do','RM','LIG.F3.0F.W0 2D','LIG.F3.0F.W0 2D S4 er'); r('vcvtss2si/qo','RM','LIG.F3.0F.W1 2D','LIG.F3.0F.W1 2D S4 er')
r('vcvttsd2si/do','RM','LIG.F2.0F.W0 2C','LIG.F2.0F.W0 2C S8 sae'); r('vcvttsd2si/qo','RM','LIG.F2.0F.W1 2C','LIG.F2.0F.W1 2C S8 sae')
r('vcvttss2si/do','RM','LIG.F3.0F.W0 2C','LIG.F3.0F.W0 2C S4 sae'); r('vcvttss2si/qo','RM','LIG.F3.0F.W1 2C','LIG.F3.0F.W1 2C S4 sae')
r('vcvtsd2ss/xxo','RVM','LIG.F2.0F.WIG 5A','LIG.F2.0F.W1 5A S8 er'); r('vcvtss2sd/xxo','RVM','LIG.F3.0F.WIG 5A','LIG.F3.0F.W0 5A S4 sae')
r('vdpps/xxoi','RVMI','xy.66.0F3A.WIG 40'); r('vdppd/xxoi','RVMI','x.66.0F3A.WIG 41')
# --- FMA
for form, base in [('132',0x90),('213',0xA0),('231',0xB0)]:
    for nm, o in [('fmaddsub',6),('fmsubadd',7),('fmadd',8),('fmsub',0xA),('fnmadd',0xC),('fnmsub',0xE)]:
        opc = '%02X' % (base+o)
        r('v%s%sps/xxo' % (nm,form),'RVM','xy.66.0F38.W0 '+opc,'xyz.66.0F38.W0 %s FV32 er' % opc)
        r('v%s%spd/xxo' % (nm,form),'RVM','xy.66.0F38.W1 '+opc,'xyz.66.0F38.W1 %s FV64 er' % opc)
        r('v%s%sph/xxo' % (nm,form),'RVM','-','xyz.66.MAP6.W0 %s FV16 er' % opc)
        if o >= 8:
            r('v%s%snepbf16/xxo' % (nm,form),'RVM','-','xyz.NP.MAP6.W0 %s FV16' % opc)
            opc = '%02X' % (base+o+1)
            r('v%s%sss/xxo' % (nm,form),'RVM','LIG.66.0F38.W0 '+opc,'LIG.66.0F38.W0 %s S4 er' % opc)
            r('v%s%ssd/xxo' % (nm,form),'RVM','LIG.66.0F38.W1 '+opc,'LIG.66.0F38.W1 %s S8 er' % opc)
            r('v%s%ssh/xxo' % (nm,form),'RVM','-','LIG.66.MAP6.W0 %s S2 er' % opc)
r('vgf2p8affineqb/xxoi','RVMI','xy.66.0F3A.W1 CE','xyz.66.0F3A.W1 CE FV64'); r('vgf2p8affineinvqb/xxoi','RVMI','xy.66.0F3A.W1 CF','xyz.66.0F3A.W1 CF FV64')
r('vgf2p8mulb/xxo','RVM','xy.66.0F38.W0 CF','xyz.66.0F38.W0 CF FVM')
r('vinsertps/xxoi','RVMI','x.66.0F3A.WIG 21','x.66.0F3A.W0 21 S4')
r('vlddqu/xa','RM','xy.F2.0F.WIG F0')
r('vldmxcsr/a','M','L0.NP.0F.WIG AE/2'); r('vstmxcsr/a','M','L0.NP.0F.WIG AE/3')
r('vmaskmovdqu/xx','RM','x.66.0F.WIG F7')
r('vmaskmovps/xxa','RVM','xy.66.0F38.W0 2C'); r('vmaskmovpd/xxa','RVM','xy.66.0F38.W0 2D')
r('vmaskmovps/axx','MVR','xy.66.0F38.W0 2E'); r('vmaskmovpd/axx','MVR','xy.66.0F38.W0 2F')
r('vpmaskmovd/xxa','RVM','xy.66.0F38.W0 8C'); r('vpmaskmovq/xxa','RVM','xy.66.0F38.W1 8C')
r('vpmaskmovd/axx','MVR','xy.66.0F38.W0 8E'); r('vpmaskmovq/axx','MVR','xy.66.0F38.W1 8E')
r('vmovhlps/xxo','RVM','x.NP.0F.WIG 12','x.NP.0F.W0 12 FVM'); r('vmovlhps/xxo','RVM','x.NP.0F.WIG 16','x.NP.0F.W0 16 FVM')  # registers only: the tuple type is not used
r('vmovhps/xoo','RVM','x.NP.0F.WIG 16','x.NP.0F.W0 16 S8'); r('vmovhpd/xoo','RVM','x.66.0F.WIG 16','x.66.0F.W1 16 S8')
r('vmovhps/ax','MR','x.NP.0F.WIG 17','x.NP.0F.W0 17 S8'); r('vmovhpd/ax','MR','x.66.0F.WIG 17','x.66.0F.W1 17 S8')
r('vmovlps/xoo','RVM','x.NP.0F.WIG 12','x.NP.0F.W0 12 S8'); r('vmovlpd/xoo','RVM','x.66.0F.WIG 12','x.66.0F.W1 12 S8')
r('vmovlps/ax','MR','x.NP.0F.WIG 13','x.NP.0F.W0 13 S8'); r('vmovlpd/ax','MR','x.66.0F.WIG 13','x.66.0F.W1 13 S8')
r('vmovmskps/rx','RM','xy.NP.0F.WIG 50'); r('vmovmskpd/rx','RM','xy.66.0F.WIG 50')
r('vmovq/xx','RM','x.F3.0F.WIG 7E','x.F3.0F.W1 7E S8')
r('vmovq/xq','RM','x.66.0F.W1 6E','x.66.0F.W1 6E FVM'); r('vmovq/qx','MR','x.66.0F.W1 7E','x.66.0F.W1 7E FVM')
r('vmovss/xa','RM','LIG.F3.0F.WIG 10','LIG.F3.0F.W0 10 S4'); r('vmovsd/xa','RM','LIG.F2.0F.WIG 10','LIG.F2.0F.W1 10 S8')
r('vmovss/ax','MR','LIG.F3.0F.WIG 11','LIG.F3.0F.W0 11 S4'); r('vmovsd/ax','MR','LIG.F2.0F.WIG 11','LIG.F2.0F.W1 11 S8')
r('vmovss/xxo','RVM','LIG.F3.0F.WIG 10','LIG.F3.0F.W0 10 S4'); r('vmovsd/xxo','RVM','LIG.F2.0F.WIG 10','LIG.F2.0F.W1 10 S8')
# --- packed integer
def wig(names): 
    for n, m, opc in names: r(n+'/xxo','RVM','xy.66.%s.WIG %s' % (m,opc),'xyz.66.%s.WIG %s FVM' % (m,opc))
wig([('vpacksswb','0F','63'),('vpackuswb','0F','67'),('vpaddb','0F','FC'),('vpaddw','0F','FD'),('vpaddsb','0F','EC'),('vpaddsw','0F','ED'),
 ('vpaddusb','0F','DC'),('vpaddusw','0F','DD'),('vpavgb','0F','E0'),('vpavgw','0F','E3'),('vpmaddubsw','0F38','04'),('vpmaddwd','0F','F5'),
 ('vpmaxsb','0F38','3C'),('vpmaxsw','0F','EE'),('vpmaxub','0F','DE'),('vpmaxuw','0F38','3E'),('vpminsb','0F38','38'),('vpminsw','0F','EA'),
 ('vpminub','0F','DA'),('vpminuw','0F38','3A'),('vpmulhrsw','0F38','0B'),('vpmulhuw','0F','E4'),('vpmulhw','0F','E5'),('vpmullw','0F','D5'),
 ('vpsadbw','0F','F6'),('vpshufb','0F38','00'),('vpsubb','0F','F8'),('vpsubw','0F','F9'),('vpsubsb','0F','E8'),('vpsubsw','0F','E9'),
 ('vpsubusb','0F','D8'),('vpsubusw','0F','D9'),('vpunpckhbw','0F','68'),('vpunpckhwd','0F','69'),('vpunpcklbw','0F','60'),('vpunpcklwd','0F','61')])
def dq(names):
    for n, m, opc, w in names: r(n+'/xxo','RVM','xy.66.%s.WIG %s' % (m,opc),'xyz.66.%s.W%d %s FV%d' % (m,w,opc,64 if w else 32))
dq([('vpackssdw','0F','6B',0),('vpackusdw','0F38','2B',0),('vpaddd','0F','FE',0),('vpaddq','0F','D4',1),('vpmaxsd','0F38','3D',0),('vpmaxud','0F38','3F',0),
 ('vpminsd','0F38','39',0),('vpminud','0F38','3B',0),('vpmuldq','0F38','28',1),('vpmulld','0F38','40',0),('vpmuludq','0F','F4',1),('vpsubd','0F','FA',0),
 ('vpsubq','0F','FB',1),('vpunpckhdq','0F','6A',0),('vpunpckhqdq','0F','6D',1),('vpunpckldq','0F','62',0),('vpunpcklqdq','0F','6C',1)])
for n, m, opc in [('vpand','0F','DB'),('vpandn','0F','DF'),('vpor','0F','EB'),('vpxor','0F','EF'),('vpcmpeqb','0F','74'),('vpcmpeqw','0F','75'),('vpcmpeqd','0F','76'),
 ('vpcmpeqq','0F38','29'),('vpcmpgtb','0F','64'),('vpcmpgtw','0F','65'),('vpcmpgtd','0F','66'),('vpcmpgtq','0F38','37'),('vphaddw','0F38','01'),('vphaddd','0F38','02'),
 ('vphaddsw','0F38','03'),('vphsubw','0F38','05'),('vphsubd','0F38','06'),('vphsubsw','0F38','07'),('vpsignb','0F38','08'),('vpsignw','0F38','09'),('vpsignd','0F38','0A')]:
    r(n+'/xxo','RVM','xy.66.%s.WIG %s' % (m,opc))
r('vpalignr/xxoi','RVMI','xy.66.0F3A.WIG 0F','xyz.66.0F3A.WIG 0F FVM')
r('vpblendd/xxoi','RVMI','xy.66.0F3A.W0 02'); r('vpblendw/xxoi','RVMI','xy.66.0F3A.WIG 0E')
r('vpclmulqdq/xxoi','RVMI','xy.66.0F3A.WIG 44','xyz.66.0F3A.WIG 44 FVM')
r('vpermd/yyo','RVM','y.66.0F38.W0 36','yz.66.0F38.W0 36 FV32'); r('vpermps/yyo','RVM','y.66.0F38.W0 16','yz.66.0F38.W0 16 FV32')
r('vpermq/yyo','RVM','-','yz.66.0F38.W1 36 FV64'); r('vpermpd/yyo','RVM','-','yz.66.0F38.W1 16 FV64')
r('vpermq/yoi','RMI','y.66.0F3A.W1 00','yz.66.0F3A.W1 00 FV64'); r('vpermpd/yoi','RMI','y.66.0F3A.W1 01','yz.66.0F3A.W1 01 FV64')
r('vpermilps/xxo','RVM','xy.66.0F38.W0 0C','xyz.66.0F38.W0 0C FV32'); r('vpermilpd/xxo','RVM','xy.66.0F38.W0 0D','xyz.66.0F38.W1 0D FV64')
r('vpermilps/xoi','RMI','xy.66.0F3A.W0 04','xyz.66.0F3A.W0 04 FV32'); r('vpermilpd/xoi','RMI','xy.66.0F3A.W0 05','xyz.66.0F3A.W1 05 FV64')
# shifts by immediate and by xmm
for n, opc, ev in [('vpsllw','71/6','WIG 71/6 FVM'),('vpslld','72/6','W0 72/6 FV32'),('vpsllq','73/6','W1 73/6 FV64'),('vpsraw','71/4','WIG 71/4 FVM'),('vpsrad','72/4','W0 72/4 FV32'),
 ('vpsrlw','71/2','WIG 71/2 FVM'),('vpsrld','72/2','W0 72/2 FV32'),('vpsrlq','73/2','W1 73/2 FV64'),('vpslldq','73/7','WIG 73/7 FVM'),('vpsrldq','73/3','WIG 73/3 FVM')]:
    r(n+'/xoi','VMI','xy.66.0F.WIG '+opc,'xyz.66.0F.'+ev)
r('vpsraq/xoi','VMI','-','xyz.66.0F.W1 72/4 FV64')
r('vprold/xoi','VMI','-','xyz.66.0F.W0 72/1 FV32'); r('vprolq/xoi','VMI','-','xyz.66.0F.W1 72/1 FV64')
r('vprord/xoi','VMI','-','xyz.66.0F.W0 72/0 FV32'); r('vprorq/xoi','VMI','-','xyz.66.0F.W1 72/0 FV64')
for n, opc, w in [('vpsllw','F1','WIG'),('vpslld','F2','W0'),('vpsllq','F3','W1'),('vpsraw','E1','WIG'),('vpsrad','E2','W0'),('vpsrlw','D1','WIG'),('vpsrld','D2','W0'),('vpsrlq','D3','W1')]:
    r(n+'/xxo','RVM','xy.66.0F.WIG '+opc,'xyz.66.0F.%s %s S16' % (w,opc))
r('vpsraq/xxo','RVM','-','xyz.66.0F.W1 E2 S16')
for n, opc in [('vpsllv','47'),('vpsrlv','45')]:
    r(n+'d/xxo','RVM','xy.66.0F38.W0 '+opc,'xyz.66.0F38.W0 %s FV32' % opc); r(n+'q/xxo','RVM','xy.66.0F38.W1 '+opc,'xyz.66.0F38.W1 %s FV64' % opc)
r('vpsravd/xxo','RVM','xy.66.0F38.W0 46','xyz.66.0F38.W0 46 FV32'); r('vpsravq/xxo','RVM','-','xyz.66.0F38.W1 46 FV64')
r('vpsllvw/xxo','RVM','-','xyz.66.0F38.W1 12 FVM'); r('vpsravw/xxo','RVM','-','xyz.66.0F38.W1 11 FVM'); r('vpsrlvw/xxo','RVM','-','xyz.66.0F38.W1 10 FVM')
r('vrcpss/xxo','RVM','LIG.F3.0F.WIG 53'); r('vrsqrtss/xxo','RVM','LIG.F3.0F.WIG 52')
r('vroundss/xxoi','RVMI','LIG.66.0F3A.WIG 0A'); r('vroundsd/xxoi','RVMI','LIG.66.0F3A.WIG 0B')
r('vshufps/xxoi','RVMI','xy.NP.0F.WIG C6','xyz.NP.0F.W0 C6 FV32'); r('vshufpd/xxoi','RVMI','xy.66.0F.WIG C6','xyz.66.0F.W1 C6 FV64')
r('vsm3msg1/xxo','RVM','x.NP.0F38.W0 DA'); r('vsm3msg2/xxo','RVM','x.66.0F38.W0 DA'); r('vsm3rnds2/xxoi','RVMI','x.66.0F3A.W0 DE')
r('vsm4key4/xxo','RVM','xy.F3.0F38.W0 DA','xyz.F3.0F38.W0 DA FVM'); r('vsm4rnds4/xxo','RVM','xy.F2.0F38.W0 DA','xyz.F2.0F38.W0 DA FVM')
r('vsqrtss/xxo','RVM','LIG.F3.0F.WIG 51','LIG.F3.0F.W0 51 S4 er'); r('vsqrtsd/xxo','RVM','LIG.F2.0F.WIG 51','LIG.F2.0F.W1 51 S8 er')
r('vsqrtsh/xxo','RVM','-','LIG.F3.MAP5.W0 51 S2 er')
for n, opc in [('unpckl','14'),('unpckh','15')]:
    r('v%sps/xxo' % n,'RVM','xy.NP.0F.WIG '+opc,'xyz.NP.0F.W0 %s FV32' % opc); r('v%spd/xxo' % n,'RVM','xy.66.0F.WIG '+opc,'xyz.66.0F.W1 %s FV64' % opc)
# --- AVX-512 RVM
r('v4fmaddps/zza','RVM','-','z.F2.0F38.W0 9A S16'); r('v4fnmaddps/zza','RVM','-','z.F2.0F38.W0 AA S16')
r('v4fmaddss/xxa','RVM','-','LIG.F2.0F38.W0 9B S16'); r('v4fnmaddss/xxa','RVM','-','LIG.F2.0F38.W0 AB S16')
r('vp4dpwssd/zza','RVM','-','z.F2.0F38.W0 52 S16'); r('vp4dpwssds/zza','RVM','-','z.F2.0F38.W0 53 S16')
def e2(n, sig, enc, m, opc, tail='', pp='66'):   # d/q style pair
    r(n+'d/'+sig,enc,'-','xyz.%s.%s.W0 %s FV32%s' % (pp,m,opc,tail)); r(n+'q/'+sig,enc,'-','xyz.%s.%s.W1 %s FV64%s' % (pp,m,opc,tail))
def eps(n, sig, enc, m, opc, tail=''):
    r(n+'ps/'+sig,enc,'-','xyz.66.%s.W0 %s FV32%s' % (m,opc,tail)); r(n+'pd/'+sig,enc,'-','xyz.66.%s.W1 %s FV64%s' % (m,opc,tail))
def ess(n, sig, enc, m, opc, tail=''):
    r(n+'ss/'+sig,enc,'-','LIG.66.%s.W0 %s S4%s' % (m,opc,tail)); r(n+'sd/'+sig,enc,'-','LIG.66.%s.W1 %s S8%s' % (m,opc,tail))
def ebw(n, sig, enc, m, opc, t='FVM'):
    r(n+'b/'+sig,enc,'-','xyz.66.%s.W0 %s %s' % (m,opc,t)); r(n+'w/'+sig,enc,'-','xyz.66.%s.W1 %s %s' % (m,opc,t))
e2('valign','xxoi','RVMI','0F3A','03'); eps('vblendm','xxo','RVM','0F38','65'); ebw('vpblendm','xxo','RVM','0F38','66'); e2('vpblendm','xxo','RVM','0F38','64')
r('vcvt2ps2phx/xxo','RVM','-','xyz.66.0F38.W0 67 FV32 er')
r('vcvtne2ph2bf8/xxo','RVM','-','xyz.F2.0F38.W0 74 FV16'); r('vcvtne2ph2bf8s/xxo','RVM','-','xyz.F2.MAP5.W0 74 FV16')
r('vcvtne2ph2hf8/xxo','RVM','-','xyz.F2.MAP5.W0 18 FV16'); r('vcvtne2ph2hf8s/xxo','RVM','-','xyz.F2.MAP5.W0 1B FV16')
r('vcvtbiasph2bf8/xxo','RVM','-','xyz.NP.0F38.W0 74 FV16'); r('vcvtbiasph2bf8s/xxo','RVM','-','xyz.NP.MAP5.W0 74 FV16')
r('vcvtbiasph2hf8/xxo','RVM','-','xyz.NP.MAP5.W0 18 FV16'); r('vcvtbiasph2hf8s/xxo','RVM','-','xyz.NP.MAP5.W0 1B FV16')
r('vcvtneph2bf8/xo','RM','-','xyz.F3.0F38.W0 74 FV16'); r('vcvtneph2bf8s/xo','RM','-','xyz.F3.MAP5.W0 74 FV16')
r('vcvtneph2hf8/xo','RM','-','xyz.F3.MAP5.W0 18 FV16'); r('vcvtneph2hf8s/xo','RM','-','xyz.F3.MAP5.W0 1B FV16')
r('vcvtne2ps2bf16/xxo','RVM','-','xyz.F2.0F38.W0 72 FV32'); r('vcvtneps2bf16/xop','RM','xy.F3.0F38.W0 72','xyz.F3.0F38.W0 72 FV32')
r('vcvtsd2sh/xxo','RVM','-','LIG.F2.MAP5.W1 5A S8 er'); r('vcvtsh2sd/xxo','RVM','-','LIG.F3.MAP5.W0 5A S2 sae')
r('vcvtsh2ss/xxo','RVM','-','LIG.NP.MAP6.W0 13 S2 sae'); r('vcvtss2sh/xxo','RVM','-','LIG.NP.MAP5.W0 1D S4 er')
r('vdbpsadbw/xxoi','RVMI','-','xyz.66.0F3A.W0 42 FVM'); r('vdpbf16ps/xxo','RVM','-','xyz.F3.0F38.W0 52 FV32'); r('vdpphps/xxo','RVM','-','xyz.NP.0F38.W0 52 FV32')
for n, pp in [('vfcmaddc','F2'),('vfmaddc','F3')]: r(n+'ph/xxo','RVM','-','xyz.%s.MAP6.W0 56 FV32 er' % pp); r(n+'sh/xxo','RVM','-','LIG.%s.MAP6.W0 57 S4 er' % pp)
for n, pp in [('vfcmulc','F2'),('vfmulc','F3')]: r(n+'ph/xxo','RVM','-','xyz.%s.MAP6.W0 D6 FV32 er' % pp); r(n+'sh/xxo','RVM','-','LIG.%s.MAP6.W0 D7 S4 er' % pp)
eps('vfixupimm','xxoi','RVMI','0F3A','54',' sae'); ess('vfixupimm','xxoi','RVMI','0F3A','55',' sae')
eps('vgetexp','xo','RM','0F38','42',' sae'); ess('vgetexp','xxo','RVM','0F38','43',' sae')
r('vgetexpph/xo','RM','-','xyz.66.MAP6.W0 42 FV16 sae'); r('vgetexpsh/xxo','RVM','-','LIG.66.MAP6.W0 43 S2 sae'); r('vgetexppbf16/xo','RM','-','xyz.NP.MAP6.W0 42 FV16')
eps('vgetmant','xoi','RMI','0F3A','26',' sae'); ess('vgetmant','xxoi','RVMI','0F3A','27',' sae')
r('vgetmantph/xoi','RMI','-','xyz.NP.0F3A.W0 26 FV16 sae'); r('vgetmantsh/xxoi','RVMI','-','LIG.NP.0F3A.W0 27 S2 sae'); r('vgetmantpbf16/xoi','RMI','-','xyz.F2.0F3A.W0 26 FV16')
eps('vminmax','xxoi','RVMI','0F3A','52',' sae'); ess('vminmax','xxoi','RVMI','0F3A','53',' sae')
r('vminmaxph/xxoi','RVMI','-','xyz.NP.0F3A.W0 52 FV16 sae'); r('vminmaxsh/xxoi','RVMI','-','LIG.NP.0F3A.W0 53 S2 sae'); r('vminmaxnepbf16/xxoi','RVMI','-','xyz.F2.0F3A.W0 52 FV16')
r('vmovsh/xa','RM','-','LIG.F3.MAP5.W0 10 S2'); r('vmovsh/ax','MR','-','LIG.F3.MAP5.W0 11 S2'); r('vmovsh/xxx','RVM','-','LIG.F3.MAP5.W0 10 S2')
for n, opc in [('vpand','DB'),('vpandn','DF'),('vpor','EB'),('vpxor','EF')]: e2(n,'xxo','RVM','0F',opc)
ebw('vperm','xxo','RVM','0F38','8D'); ebw('vpermi2','xxo','RVM','0F38','75'); e2('vpermi2','xxo','RVM','0F38','76'); eps('vpermi2','xxo','RVM','0F38','77')
ebw('vpermt2','xxo','RVM','0F38','7D'); e2('vpermt2','xxo','RVM','0F38','7E'); eps('vpermt2','xxo','RVM','0F38','7F')
r('vpmadd52luq/xxo','RVM','xy.66.0F38.W1 B4','xyz.66.0F38.W1 B4 FV64'); r('vpmadd52huq/xxo','RVM','xy.66.0F38.W1 B5','xyz.66.0F38.W1 B5 FV64')
for n, opc in [('vpmaxsq','3D'),('vpmaxuq','3F'),('vpminsq','39'),('vpminuq','3B'),('vpmullq','40')]: r(n+'/xxo','RVM','-','xyz.66.0F38.W1 %s FV64' % opc)
r('vpmultishiftqb/xxo','RVM','-','xyz.66.0F38.W1 83 FV64')
e2('vprolv','xxo','RVM','0F38','15'); e2('vprorv','xxo','RVM','0F38','14')
e2('vpshld','xxoi','RVMI','0F3A','71'); r('vpshldw/xxoi','RVMI','-','xyz.66.0F3A.W1 70 FVM'); e2('vpshrd','xxoi','RVMI','0F3A','73'); r('vpshrdw/xxoi','RVMI','-','xyz.66.0F3A.W1 72 FVM')
e2('vpshldv','xxo','RVM','0F38','71'); r('vpshldvw/xxo','RVM','-','xyz.66.0F38.W1 70 FVM'); e2('vpshrdv','xxo','RVM','0F38','73'); r('vpshrdvw/xxo','RVM','-','xyz.66.0F38.W1 72 FVM')
e2('vpternlog','xxoi','RVMI','0F3A','25')
eps('vrange','xxoi','RVMI','0F3A','50',' sae'); ess('vrange','xxoi','RVMI','0F3A','51',' sae')
ess('vrcp14','xxo','RVM','0F38','4D'); ess('vrcp28','xxo','RVM','0F38','CB',' sae'); r('vrcpsh/xxo','RVM','-','LIG.66.MAP6.W0 4D S2')
ess('vrsqrt14','xxo','RVM','0F38','4F'); ess('vrsqrt28','xxo','RVM','0F38','CD',' sae'); r('vrsqrtsh/xxo','RVM','-','LIG.66.MAP6.W0 4F S2')
ess('vreduce','xxoi','RVMI','0F3A','57',' sae'); r('vreducesh/xxoi','RVMI','-','LIG.NP.0F3A.W0 57 S2 sae')
r('vrndscalesd/xxoi','RVMI','-','LIG.66.0F3A.W1 0B S8 sae'); r('vrndscaless/xxoi','RVMI','-','LIG.66.0F3A.W0 0A S4 sae'); r('vrndscalesh/xxoi','RVMI','-','LIG.NP.0F3A.W0 0A S2 sae')
eps('vscalef','xxo','RVM','0F38','2C',' er'); ess('vscalef','xxo','RVM','0F38','2D',' er')
r('vscalefph/xxo','RVM','-','xyz.66.MAP6.W0 2C FV16 er'); r('vscalefsh/xxo','RVM','-','LIG.66.MAP6.W0 2D S2 er'); r('vscalefpbf16/xxo','RVM','-','xyz.NP.MAP6.W0 2C FV16')
for n, opc in [('vshuff','23'),('vshufi','43')]: r(n+'32x4/yyoi','RVMI','-','yz.66.0F3A.W0 %s FV32' % opc); r(n+'64x2/yyoi','RVMI','-','yz.66.0F3A.W1 %s FV64' % opc)
# --- RM
r('vaesimc/xo','RM','x.66.0F38.WIG DB'); r('vaeskeygenassist/xoi','RMI','x.66.0F3A.WIG DF')
r('vbroadcastf128/ya','RM','y.66.0F38.W0 1A'); r('vbroadcasti128/ya','RM','y.66.0F38.W0 5A')
r('vbroadcastsd/yo','RM','y.66.0F38.W0 19','yz.66.0F38.W1 19 S8'); r('vbroadcastss/xo','RM','xy.66.0F38.W0 18','xyz.66.0F38.W0 18 S4')
for n, opc in [('vucomis','2E'),('vcomis','2F')]:
    r(n+'s/xo','RM','LIG.NP.0F.WIG '+opc,'LIG.NP.0F.W0 %s S4 sae' % opc); r(n+'d/xo','RM','LIG.66.0F.WIG '+opc,'LIG.66.0F.W1 %s S8 sae' % opc)
    r(n+'h/xo','RM','-','LIG.NP.MAP5.W0 %s S2 sae' % opc)
for n, opc in [('vucomxs','2E'),('vcomxs','2F')]:
    r(n+'s/xo','RM','-','LIG.F3.0F.W0 %s S4 sae' % opc); r(n+'d/xo','RM','-','LIG.F2.0F.W1 %s S8 sae' % opc); r(n+'h/xo','RM','-','LIG.F3.MAP5.W0 %s S2 sae' % opc)
r('vcomsbf16/xo','RM','-','LIG.66.MAP5.W0 2F S2')
r('vcvtdq2ps/xo','RM','xy.NP.0F.WIG 5B','xyz.NP.0F.W0 5B FV32 er'); r('vcvtps2dq/xo','RM','xy.66.0F.WIG 5B','xyz.66.0F.W0 5B FV32 er'); r('vcvttps2dq/xo','RM','xy.F3.0F.WIG 5B','xyz.F3.0F.W0 5B FV32 sae')
for n, pp, w, o in [('vmovaps','NP','W0',0x28),('vmovapd','66','W1',0x28),('vmovups','NP','W0',0x10),('vmovupd','66','W1',0x10)]:
    r(n+'/xo','RM','xy.%s.0F.WIG %02X' % (pp,o),'xyz.%s.0F.%s %02X FVM' % (pp,w,o)); r(n+'/ax','MR','xy.%s.0F.WIG %02X' % (pp,o+1),'xyz.%s.0F.%s %02X FVM' % (pp,w,o+1))
r('vmovddup/xo','RM','xy.F2.0F.WIG 12','xyz.F2.0F.W1 12 DUP'); r('vmovshdup/xo','RM','xy.F3.0F.WIG 16','xyz.F3.0F.W0 16 FVM'); r('vmovsldup/xo','RM','xy.F3.0F.WIG 12','xyz.F3.0F.W0 12 FVM')
r('vmovdqa/xo','RM','xy.66.0F.WIG 6F'); r('vmovdqa/ax','MR','xy.66.0F.WIG 7F'); r('vmovdqu/xo','RM','xy.F3.0F.WIG 6F'); r('vmovdqu/ax','MR','xy.F3.0F.WIG 7F')
for n, pp, w in [('vmovdqa32','66',0),('vmovdqa64','66',1),('vmovdqu8','F2',0),('vmovdqu16','F2',1),('vmovdqu32','F3',0),('vmovdqu64','F3',1)]:
    r(n+'/xo','RM','-','xyz.%s.0F.W%d 6F FVM' % (pp,w)); r(n+'/ax','MR','-','xyz.%s.0F.W%d 7F FVM' % (pp,w))
r('vpabsb/xo','RM','xy.66.0F38.WIG 1C','xyz.66.0F38.WIG 1C FVM'); r('vpabsw/xo','RM','xy.66.0F38.WIG 1D','xyz.66.0F38.WIG 1D FVM')
r('vpabsd/xo','RM','xy.66.0F38.WIG 1E','xyz.66.0F38.W0 1E FV32'); r('vpabsq/xo','RM','-','xyz.66.0F38.W1 1F FV64')
r('vpbroadcastb/xo','RM','xy.66.0F38.W0 78','xyz.66.0F38.W0 78 S1'); r('vpbroadcastw/xo','RM','xy.66.0F38.W0 79','xyz.66.0F38.W0 79 S2')
r('vpbroadcastd/xo','RM','xy.66.0F38.W0 58','xyz.66.0F38.W0 58 S4'); r('vpbroadcastq/xo','RM','xy.66.0F38.W0 59','xyz.66.0F38.W1 59 S8')
for n, opc, w in [('vpcmpestrm','60','W0'),('vpcmpestri','61','W0'),('vpcmpistrm','62','WIG'),('vpcmpistri','63','WIG')]: r(n+'/xoi','RMI','x.66.0F3A.%s %s' % (w,opc))
r('vphminposuw/xo','RM','x.66.0F38.WIG 41')
for s, b in [('s',0x20),('z',0x30)]:
    for k, (n, t) in enumerate([('bw','HVM'),('bd','QVM'),('bq','OVM'),('wd','HVM'),('wq','QVM'),('dq','HVM')]):
        r('vpmov%sx%s/xo' % (s,n),'RM','xy.66.0F38.WIG %02X' % (b+k),'xyz.66.0F38.%s %02X %s' % ('W0' if n=='dq' else 'WIG',b+k,t))
r('vpshufd/xoi','RMI','xy.66.0F.WIG 70','xyz.66.0F.W0 70 FV32'); r('vpshufhw/xoi','RMI','xy.F3.0F.WIG 70','xyz.F3.0F.WIG 70 FVM'); r('vpshuflw/xoi','RMI','xy.F2.0F.WIG 70','xyz.F2.0F.WIG 70 FVM')
r('vptest/xo','RM','xy.66.0F38.WIG 17'); r('vtestps/xo','RM','xy.66.0F38.W0 0E'); r('vtestpd/xo','RM','xy.66.0F38.W0 0F')
r('vrcpps/xo','RM','xy.NP.0F.WIG 53'); r('vrsqrtps/xo','RM','xy.NP.0F.WIG 52')
r('vroundps/xoi','RMI','xy.66.0F3A.WIG 08'); r('vroundpd/xoi','RMI','xy.66.0F3A.WIG 09')
r('vsqrtps/xo','RM','xy.NP.0F.WIG 51','xyz.NP.0F.W0 51 FV32 er'); r('vsqrtpd/xo','RM','xy.66.0F.WIG 51','xyz.66.0F.W1 51 FV64 er')
r('vsqrtph/xo','RM','-','xyz.NP.MAP5.W0 51 FV16 er'); r('vsqrtnepbf16/xo','RM','-','xyz.66.MAP5.W0 51 FV16')
r('vbroadcastf32x2/yo','RM','-','yz.66.0F38.W0 19 S8'); r('vbroadcasti32x2/xo','RM','-','xyz.66.0F38.W0 59 S8')
r('vbroadcastf32x4/ya','RM','-','yz.66.0F38.W0 1A S16'); r('vbroadcastf64x2/ya','RM','-','yz.66.0F38.W1 1A S16'); r('vbroadcastf32x8/za','RM','-','z.66.0F38.W0 1B S32'); r('vbroadcastf64x4/za','RM','-','z.66.0F38.W1 1B S32')
r('vbroadcasti32x4/yo','RM','-','yz.66.0F38.W0 5A S16'); r('vbroadcasti64x2/yo','RM','-','yz.66.0F38.W1 5A S16'); r('vbroadcasti32x8/zo','RM','-','z.66.0F38.W0 5B S32'); r('vbroadcasti64x4/zo','RM','-','z.66.0F38.W1 5B S32')
r('vcompressps/ox','MR','-','xyz.66.0F38.W0 8A S4'); r('vcompresspd/ox','MR','-','xyz.66.0F38.W1 8A S8'); r('vpcompressd/ox','MR','-','xyz.66.0F38.W0 8B S4'); r('vpcompressq/ox','MR','-','xyz.66.0F38.W1 8B S8')
r('vpcompressb/ox','MR','-','xyz.66.0F38.W0 63 S1'); r('vpcompressw/ox','MR','-','xyz.66.0F38.W1 63 S2')
r('vexpandps/xo','RM','-','xyz.66.0F38.W0 88 S4'); r('vexpandpd/xo','RM','-','xyz.66.0F38.W1 88 S8'); r('vpexpandd/xo','RM','-','xyz.66.0F38.W0 89 S4'); r('vpexpandq/xo','RM','-','xyz.66.0F38.W1 89 S8')
r('vpexpandb/xo','RM','-','xyz.66.0F38.W0 62 S1'); r('vpexpandw/xo','RM','-','xyz.66.0F38.W1 62 S2')
# conversions
def cv(n, f, t): r(n+'/xo','RM','-','xyz.%s %s' % (f,t))
cv('vcvtpd2qq','66.0F.W1 7B','FV64 er'); cv('vcvtpd2uqq','66.0F.W1 79','FV64 er'); cv('vcvttpd2qq','66.0F.W1 7A','FV64 sae'); cv('vcvttpd2uqq','66.0F.W1 78','FV64 sae')
cv('vcvtps2qq','66.0F.W0 7B','HV32 er'); cv('vcvtps2uqq','66.0F.W0 79','HV32 er'); cv('vcvttps2qq','66.0F.W0 7A','HV32 sae'); cv('vcvttps2uqq','66.0F.W0 78','HV32 sae')
cv('vcvtps2udq','NP.0F.W0 79','FV32 er'); cv('vcvttps2udq','NP.0F.W0 78','FV32 sae'); cv('vcvtpd2udq','NP.0F.W1 79','FV64 er'); cv('vcvttpd2udq','NP.0F.W1 78','FV64 sae')
cv('vcvtqq2pd','F3.0F.W1 E6','FV64 er'); cv('vcvtqq2ps','NP.0F.W1 5B','FV64 er'); cv('vcvtuqq2pd','F3.0F.W1 7A','FV64 er'); cv('vcvtuqq2ps','F2.0F.W1 7A','FV64 er')
cv('vcvtudq2ps','F2.0F.W0 7A','FV32 er'); cv('vcvtudq2pd','F3.0F.W0 7A','HV32')
cv('vcvtph2w','66.MAP5.W0 7D','FV16 er'); cv('vcvtph2uw','NP.MAP5.W0 7D','FV16 er'); cv('vcvttph2w','66.MAP5.W0 7C','FV16 sae'); cv('vcvttph2uw','NP.MAP5.W0 7C','FV16 sae')
cv('vcvtw2ph','F3.MAP5.W0 7D','FV16 er'); cv('vcvtuw2ph','F2.MAP5.W0 7D','FV16 er')
cv('vcvtph2dq','66.MAP5.W0 5B','HV16 er'); cv('vcvttph2dq','F3.MAP5.W0 5B','HV16 sae'); cv('vcvtph2udq','NP.MAP5.W0 79','HV16 er'); cv('vcvttph2udq','NP.MAP5.W0 78','HV16 sae')
cv('vcvtph2qq','66.MAP5.W0 7B','QV16 er'); cv('vcvttph2qq','66.MAP5.W0 7A','QV16 sae'); cv('vcvtph2uqq','66.MAP5.W0 79','QV16 er'); cv('vcvttph2uqq','66.MAP5.W0 78','QV16 sae')
cv('vcvtph2pd','NP.MAP5.W0 5A','QV16 sae'); cv('vcvtph2psx','66.MAP6.W0 13','HV16 sae'); cv('vcvthf82ph','F2.MAP5.W0 1E','HVM')
cv('vcvtdq2ph','NP.MAP5.W0 5B','FV32 er'); cv('vcvtps2phx','66.MAP5.W0 1D','FV32 er'); cv('vcvtudq2ph','F2.MAP5.W0 7A','FV32 er')
cv('vcvtpd2ph','66.MAP5.W1 5A','FV64 er'); cv('vcvtqq2ph','NP.MAP5.W1 5B','FV64 er'); cv('vcvtuqq2ph','F2.MAP5.W1 7A','FV64 er')
cv('vcvtps2ibs','66.MAP5.W0 69','FV32 er'); cv('vcvtps2iubs','66.MAP5.W0 6B','FV32 er'); cv('vcvttps2ibs','66.MAP5.W0 68','FV32 sae'); cv('vcvttps2iubs','66.MAP5.W0 6A','FV32 sae')
cv('vcvtph2ibs','NP.MAP5.W0 69','FV16 er'); cv('vcvtph2iubs','NP.MAP5.W0 6B','FV16 er'); cv('vcvttph2ibs','NP.MAP5.W0 68','FV16 sae'); cv('vcvttph2iubs','NP.MAP5.W0 6A','FV16 sae')
cv('vcvtnebf162ibs','F2.MAP5.W0 69','FV16'); cv('vcvtnebf162iubs','F2.MAP5.W0 6B','FV16'); cv('vcvttnebf162ibs','F2.MAP5.W0 68','FV16'); cv('vcvttnebf162iubs','F2.MAP5.W0 6A','FV16')
cv('vcvttps2dqs','NP.MAP5.W0 6D','FV32 sae'); cv('vcvttps2udqs','NP.MAP5.W0 6C','FV32 sae'); cv('vcvttpd2dqs','NP.MAP5.W1 6D','FV64 sae'); cv('vcvttpd2udqs','NP.MAP5.W1 6C','FV64 sae')
cv('vcvttpd2qqs','66.MAP5.W1 6D','FV64 sae'); cv('vcvttpd2uqqs','66.MAP5.W1 6C','FV64 sae'); cv('vcvttps2qqs','66.MAP5.W0 6D','HV32 sae'); cv('vcvttps2uqqs','66.MAP5.W0 6C','HV32 sae')
r('vcvtpd2dq/xo','RM','xy.F2.0F.WIG E6','xyz.F2.0F.W1 E6 FV64 er'); r('vcvttpd2dq/xo','RM','xy.66.0F.WIG E6','xyz.66.0F.W1 E6 FV64 sae'); r('vcvtpd2ps/xo','RM','xy.66.0F.WIG 5A','xyz.66.0F.W1 5A FV64 er')
r('vcvtdq2pd/xo','RM','xy.F3.0F.WIG E6','xyz.F3.0F.W0 E6 HV32'); r('vcvtps2pd/xo','RM','xy.NP.0F.WIG 5A','xyz.NP.0F.W0 5A HV32 sae')
r('vcvtph2ps/xo','RM','xy.66.0F38.W0 13','xyz.66.0F38.W0 13 HVM sae'); r('vcvtps2ph/oxi','MRI','xy.66.0F3A.W0 1D','xyz.66.0F3A.W0 1D HVM sae')
r('vexp2ps/zo','RM','-','z.66.0F38.W0 C8 FV32 sae'); r('vexp2pd/zo','RM','-','z.66.0F38.W1 C8 FV64 sae')
r('vrcp28ps/zo','RM','-','z.66.0F38.W0 CA FV32 sae'); r('vrcp28pd/zo','RM','-','z.66.0F38.W1 CA FV64 sae'); r('vrsqrt28ps/zo','RM','-','z.66.0F38.W0 CC FV32 sae'); r('vrsqrt28pd/zo','RM','-','z.66.0F38.W1 CC FV64 sae')
eps('vrcp14','xo','RM','0F38','4C'); eps('vrsqrt14','xo','RM','0F38','4E')
r('vrcpph/xo','RM','-','xyz.66.MAP6.W0 4C FV16'); r('vrsqrtph/xo','RM','-','xyz.66.MAP6.W0 4E FV16'); r('vrcppbf16/xo','RM','-','xyz.NP.MAP6.W0 4C FV16'); r('vrsqrtpbf16/xo','RM','-','xyz.NP.MAP6.W0 4E FV16')
e2('vpconflict','xo','RM','0F38','C4'); e2('vplzcnt','xo','RM','0F38','44'); ebw('vpopcnt','xo','RM','0F38','54'); e2('vpopcnt','xo','RM','0F38','55')
eps('vreduce','xoi','RMI','0F3A','56',' sae'); r('vreduceph/xoi','RMI','-','xyz.NP.0F3A.W0 56 FV16 sae'); r('vreducenepbf16/xoi','RMI','-','xyz.F2.0F3A.W0 56 FV16')
r('vrndscaleps/xoi','RMI','-','xyz.66.0F3A.W0 08 FV32 sae'); r('vrndscalepd/xoi','RMI','-','xyz.66.0F3A.W1 09 FV64 sae'); r('vrndscaleph/xoi','RMI','-','xyz.NP.0F3A.W0 08 FV16 sae'); r('vrndscalenepbf16/xoi','RMI','-','xyz.F2.0F3A.W0 08 FV16')
# --- mask destinations
r('vcmpps/kxoi','RVMI','-','xyz.NP.0F.W0 C2 FV32 sae'); r('vcmppd/kxoi','RVMI','-','xyz.66.0F.W1 C2 FV64 sae'); r('vcmpss/kxoi','RVMI','-','LIG.F3.0F.W0 C2 S4 sae'); r('vcmpsd/kxoi','RVMI','-','LIG.F2.0F.W1 C2 S8 sae')
r('vcmpph/kxoi','RVMI','-','xyz.NP.0F3A.W0 C2 FV16 sae'); r('vcmpsh/kxoi','RVMI','-','LIG.F3.0F3A.W0 C2 S2 sae'); r('vcmppbf16/kxoi','RVMI','-','xyz.F2.0F3A.W0 C2 FV16')
e2('vp2intersect','kxo','RVM','0F38','68',pp='F2')
ebw('vpcmp','kxoi','RVMI','0F3A','3F'); ebw('vpcmpu','kxoi','RVMI','0F3A','3E'); e2('vpcmp','kxoi','RVMI','0F3A','1F'); e2('vpcmpu','kxoi','RVMI','0F3A','1E')
r('vpcmpeqb/kxo','RVM','-','xyz.66.0F.WIG 74 FVM'); r('vpcmpeqw/kxo','RVM','-','xyz.66.0F.WIG 75 FVM'); r('vpcmpeqd/kxo','RVM','-','xyz.66.0F.W0 76 FV32'); r('vpcmpeqq/kxo','RVM','-','xyz.66.0F38.W1 29 FV64')
r('vpcmpgtb/kxo','RVM','-','xyz.66.0F.WIG 64 FVM'); r('vpcmpgtw/kxo','RVM','-','xyz.66.0F.WIG 65 FVM'); r('vpcmpgtd/kxo','RVM','-','xyz.66.0F.W0 66 FV32'); r('vpcmpgtq/kxo','RVM','-','xyz.66.0F38.W1 37 FV64')
ebw('vptestm','kxo','RVM','0F38','26'); e2('vptestm','kxo','RVM','0F38','27')
r('vptestnmb/kxo','RVM','-','xyz.F3.0F38.W0 26 FVM'); r('vptestnmw/kxo','RVM','-','xyz.F3.0F38.W1 26 FVM'); e2('vptestnm','kxo','RVM','0F38','27',pp='F3')
eps('vfpclass','koi','RMI','0F3A','66'); ess('vfpclass','koi','RMI','0F3A','67'); r('vfpclassph/koi','RMI','-','xyz.NP.0F3A.W0 66 FV16'); r('vfpclasssh/koi','RMI','-','LIG.NP.0F3A.W0 67 S2'); r('vfpclasspbf16/koi','RMI','-','xyz.F2.0F3A.W0 66 FV16')
r('vpshufbitqmb/kxo','RVM','-','xyz.66.0F38.W0 8F FVM')
r('vpmovb2m/kx','RM','-','xyz.F3.0F38.W0 29 FVM'); r('vpmovw2m/kx','RM','-','xyz.F3.0F38.W1 29 FVM'); r('vpmovd2m/kx','RM','-','xyz.F3.0F38.W0 39 FVM'); r('vpmovq2m/kx','RM','-','xyz.F3.0F38.W1 39 FVM')
r('vpmovm2b/xk','RM','-','xyz.F3.0F38.W0 28 FVM'); r('vpmovm2w/xk','RM','-','xyz.F3.0F38.W1 28 FVM'); r('vpmovm2d/xk','RM','-','xyz.F3.0F38.W0 38 FVM'); r('vpmovm2q/xk','RM','-','xyz.F3.0F38.W1 38 FVM')
r('vpbroadcastmb2q/xk','RM','-','xyz.F3.0F38.W1 2A FVM'); r('vpbroadcastmw2d/xk','RM','-','xyz.F3.0F38.W0 3A FVM')
r('vpbroadcastb/xb','RM','-','xyz.66.0F38.W0 7A FVM'); r('vpbroadcastw/xw','RM','-','xyz.66.0F38.W0 7B FVM'); r('vpbroadcastd/xd','RM','-','xyz.66.0F38.W0 7C FVM'); r('vpbroadcastq/xq','RM','-','xyz.66.0F38.W1 7C FVM')
# --- misc opVex
r('vbcstnesh2ps/xa','RM','xy.66.0F38.W0 B1'); r('vbcstnebf162ps/xa','RM','xy.F3.0F38.W0 B1')
r('vcvtneeph2ps/xa','RM','xy.66.0F38.W0 B0'); r('vcvtneebf162ps/xa','RM','xy.F3.0F38.W0 B0'); r('vcvtneobf162ps/xa','RM','xy.F2.0F38.W0 B0'); r('vcvtneoph2ps/xa','RM','xy.NP.0F38.W0 B0')
r('vextractf128/oyi','MRI','y.66.0F3A.W0 19'); r('vextracti128/oyi','MRI','y.66.0F3A.W0 39'); r('vinsertf128/yyoi','RVMI','y.66.0F3A.W0 18'); r('vinserti128/yyoi','RVMI','y.66.0F3A.W0 38')
r('vperm2f128/yyoi','RVMI','y.66.0F3A.W0 06'); r('vperm2i128/yyoi','RVMI','y.66.0F3A.W0 46')
r('vextractps/oxi','MRI','x.66.0F3A.WIG 17','x.66.0F3A.WIG 17 S4')
r('vmovntdq/ax','MR','xy.66.0F.WIG E7','xyz.66.0F.W0 E7 FVM'); r('vmovntdqa/xa','RM','xy.66.0F38.WIG 2A','xyz.66.0F38.W0 2A FVM'); r('vmovntpd/ax','MR','xy.66.0F.WIG 2B','xyz.66.0F.W1 2B FVM'); r('vmovntps/ax','MR','xy.NP.0F.WIG 2B','xyz.NP.0F.W0 2B FVM')
r('vpextrb/oxi','MRI','x.66.0F3A.W0 14','x.66.0F3A.WIG 14 S1'); r('vpextrd/oxi','MRI','x.66.0F3A.W0 16','x.66.0F3A.W0 16 S4'); r('vpextrq/oxi','MRI','x.66.0F3A.W1 16','x.66.0F3A.W1 16 S8')
r('vpinsrb/xxoi','RVMI','x.66.0F3A.W0 20','x.66.0F3A.WIG 20 S1'); r('vpinsrw/xxoi','RVMI','x.66.0F.W0 C4','x.66.0F.WIG C4 S2'); r('vpinsrd/xxoi','RVMI','x.66.0F3A.W0 22','x.66.0F3A.W0 22 S4'); r('vpinsrq/xxoi','RVMI','x.66.0F3A.W1 22','x.66.0F3A.W1 22 S8')
r('vpmovmskb/ex','RM','xy.66.0F.WIG D7')
r('vsha512msg1/yx','RM','y.F2.0F38.W0 CC'); r('vsha512msg2/yy','RM','y.F2.0F38.W0 CD'); r('vsha512rnds2/yyx','RVM','y.F2.0F38.W0 CB')
for n, t in [('32x4','yz.66.0F3A.W0 %s S16'),('64x2','yz.66.0F3A.W1 %s S16')]:
    for s, o, i in [('f','19','18'),('i','39','38')]: r('vextract%s%s/oyi' % (s,n),'MRI','-',t % o); r('vinsert%s%s/yyoi' % (s,n),'RVMI','-',t % i)
for n, t in [('32x8','z.66.0F3A.W0 %s S32'),('64x4','z.66.0F3A.W1 %s S32')]:
    for s, o, i in [('f','1B','1A'),('i','3B','3A')]: r('vextract%s%s/ozi' % (s,n),'MRI','-',t % o); r('vinsert%s%s/zzoi' % (s,n),'RVMI','-',t % i)
# scalar <-> integer (W from the general register)
for n, f, t in [('vcvtsd2usi','F2.0F','79 S8 er'),('vcvttsd2usi','F2.0F','78 S8 sae'),('vcvtss2usi','F3.0F','79 S4 er'),('vcvttss2usi','F3.0F','78 S4 sae'),
 ('vcvtsh2si','F3.MAP5','2D S2 er'),('vcvtsh2usi','F3.MAP5','79 S2 er'),('vcvttsh2si','F3.MAP5','2C S2 sae'),('vcvttsh2usi','F3.MAP5','78 S2 sae'),
 ('vcvttsd2sis','F2.MAP5','6D S8 sae'),('vcvttsd2usis','F2.MAP5','6C S8 sae'),('vcvttss2sis','F3.MAP5','6D S4 sae'),('vcvttss2usis','F3.MAP5','6C S4 sae')]:
    r(n+'/eo','RM','-','LIG.%s.Wreg %s' % (f,t))
for n, f, v in [('vcvtsi2ss','F3.0F','2A'),('vcvtsi2sd','F2.0F','2A'),('vcvtusi2ss','F3.0F','7B'),('vcvtusi2sd','F2.0F','7B'),('vcvtsi2sh','F3.MAP5','2A'),('vcvtusi2sh','F3.MAP5','7B')]:
    vx = 'LIG.%s.Wreg %s' % (f,v) if v == '2A' and f != 'F3.MAP5' else '-'
    r(n+'/xxo','RVM',vx,'LIG.%s.Wreg %s Sreg er' % (f,v))
# down conversions
for n, o, t in [('wb',0,'HVM'),('db',1,'QVM'),('qb',2,'OVM'),('dw',3,'HVM'),('qw',4,'QVM'),('qd',5,'HVM')]:
    for s, b in [('',0x30),('s',0x20),('us',0x10)]: r('vpmov%s%s/ox' % (s,n),'MR','-','xyz.F3.0F38.W0 %02X %s' % (b+o,t))
# preferred-encoding instructions
for n, o in [('vpdpbusd','50'),('vpdpbusds','51'),('vpdpwssd','52'),('vpdpwssds','53')]: r(n+'/xxop','RVM','xy.66.0F38.W0 '+o,'xyz.66.0F38.W0 %s FV32' % o)
for n, pp in [('ss','F2'),('su','F3'),('uu','NP')]:
    for s, o in [('d','50'),('ds','51')]: r('vpdpb%s%s/xxop' % (n,s),'RVM','xy.%s.0F38.W0 %s' % (pp,o),'xyz.%s.0F38.W0 %s FV32' % (pp,o))
for n, pp in [('su','F3'),('us','66'),('uu','NP')]:
    for s, o in [('d','D2'),('ds','D3')]: r('vpdpw%s%s/xxop' % (n,s),'RVM','xy.%s.0F38.W0 %s' % (pp,o),'xyz.%s.0F38.W0 %s FV32' % (pp,o))
r('vmpsadbw/xxoip','RVMI','xy.66.0F3A.WIG 42','xyz.F3.0F3A.W0 42 FVM')
# gather / scatter
for n, o, w in [('vgatherdps','92',0),('vgatherdpd','92',1),('vgatherqps','93',0),('vgatherqpd','93',1),('vpgatherdd','90',0),('vpgatherdq','90',1),('vpgatherqd','91',0),('vpgatherqq','91',1)]:
    r(n+'/xax','RMV','xy.66.0F38.W%d %s' % (w,o)); r(n+'/xa','RM','-','xyz.66.0F38.W%d %s S%d' % (w,o,8 if w else 4))
for n, o, w in [('vscatterdps','A2',0),('vscatterdpd','A2',1),('vscatterqps','A3',0),('vscatterqpd','A3',1),('vpscatterdd','A0',0),('vpscatterdq','A0',1),('vpscatterqd','A1',0),('vpscatterqq','A1',1)]:
    r(n+'/ax','MR','-','xyz.66.0F38.W%d %s S%d' % (w,o,8 if w else 4))
for n, d in [('vgatherpf0',1),('vgatherpf1',2),('vscatterpf0',5),('vscatterpf1',6)]:
    for t, o, w in [('dps','C6',0),('qps','C7',0),('dpd','C6',1),('qpd','C7',1)]: r(n+t+'/a','M','-','z.66.0F38.W%d %s/%d S%d' % (w,o,d,8 if w else 4))
# --- opmask
for n, o in [('kadd','4A'),('kand','41'),('kandn','42'),('kor','45'),('kxnor','46'),('kxor','47')]:
    r(n+'b/kkk','RVM','L1.66.0F.W0 '+o); r(n+'w/kkk','RVM','L1.NP.0F.W0 '+o); r(n+'d/kkk','RVM','L1.66.0F.W1 '+o); r(n+'q/kkk','RVM','L1.NP.0F.W1 '+o)
for n, o in [('knot','44'),('kortest','98'),('ktest','99')]:
    r(n+'b/kk','RM','L0.66.0F.W0 '+o); r(n+'w/kk','RM','L0.NP.0F.W0 '+o); r(n+'d/kk','RM','L0.66.0F.W1 '+o); r(n+'q/kk','RM','L0.NP.0F.W1 '+o)
for n, o in [('kshiftl',0x32),('kshiftr',0x30)]:
    r(n+'b/kki','RMI','L0.66.0F3A.W0 %02X' % o); r(n+'w/kki','RMI','L0.66.0F3A.W1 %02X' % o); r(n+'d/kki','RMI','L0.66.0F3A.W0 %02X' % (o+1)); r(n+'q/kki','RMI','L0.66.0F3A.W1 %02X' % (o+1))
r('kunpckbw/kkk','RVM','L1.66.0F.W0 4B'); r('kunpckwd/kkk','RVM','L1.NP.0F.W0 4B'); r('kunpckdq/kkk','RVM','L1.NP.0F.W1 4B')
# --- AMX
r('tilezero/t','R','L0.F2.0F38.W0 49')
for n, pp, o in [('tdpbssd','F2','5E'),('tdpbsud','F3','5E'),('tdpbusd','66','5E'),('tdpbuud','NP','5E'),('tdpfp16ps','F2','5C'),('tdpbf16ps','F3','5C')]: r(n+'/ttt','RMV','L0.%s.0F38.W0 %s' % (pp,o))

# ---- output: rocq/theories/IsaRows.v
import re, os
LC = {'x':'Lx','y':'Ly','z':'Lz','xy':'Lxy','yz':'Lyz','xyz':'Lxyz','LIG':'LIG','L0':'L_0','L1':'L_1'}
PP = {'NP':'NP','66':'P66','F3':'PF3','F2':'PF2'}
MP = {'0F':'M0F','0F38':'M0F38','0F3A':'M0F3A','MAP5':'MAP5','MAP6':'MAP6'}
ENC = {'RVM':'RVM','RVMI':'RVMI','RM':'RM','RMI':'RMI','MR':'MR','MRI':'MRI','VMI':'VMI','RMV':'RMV','MVR':'MVR','RVM4':'RVM4','M':'M_','R':'R_'}
def coqname(n): return 'r_' + n.replace('/', '_')
def tup(t):
    m = re.match(r'(FV|HV|QV)(\d+)$', t)
    if m: return '(%s %d)' % (m[1], int(m[2])//8)
    m = re.match(r'S(\d+)$', t)
    if m: return '(TS %s)' % m[1]
    return t
def split(row):
    """rows with Wreg: one row per register width"""
    n, enc, v, e = row
    if 'Wreg' not in v + e: return [row]
    return [(n + str(b), enc, v.replace('Wreg', w), e.replace('Wreg', w).replace('Sreg', 'S%d' % (b//8))) for b, w in [(32,'W0'),(64,'W1')]]
def coqrow(n, enc, v, e):
    digit = 'None'
    def form(s):
        nonlocal digit
        a = s.split()
        L, p, m, w = a[0].split('.')
        o = a[1]
        if '/' in o:
            o, d = o.split('/'); digit = '(Some %s)' % d.strip('r')
        return '%s %s %s %s 0x%s' % (LC[L], PP[p], MP[m], w, o), a[2:]
    vs = 'no_vex'; es = 'no_evex'
    if v != '-': vs = '(V %s)' % form(v)[0]
    if e != '-':
        f, rest = form(e)
        es = '(EV %s %s %s)' % (f, tup(rest[0]), {'er':'Er','sae':'Sae'}.get(rest[1] if len(rest) > 1 else '', 'NoRc'))
    return 'Definition %s := mkRow %s %s %s %s.' % (coqname(n), ENC[enc], digit, vs, es)
def allrows(): return [x for r in ROWS for x in split(r)]
if __name__ == '__main__':
    out = os.path.join(os.path.dirname(__file__), '..', 'rocq', 'theories', 'IsaRows.v')
    with open(out, 'w') as f:
        f.write('''(* The VEX / EVEX instruction table of the Intel SDM vol. 2 (with the AVX10.2 rows of the AVX10.2
   specification), in the vocabulary of SpecIsa.v; produced by tools/isa.py, where the rows are typed
   in.  Row names: mnemonic and the parameter classes of the xbyak overload it is compared with. *)
From Coq Require Import ZArith List.
From Verif Require Import SpecX86 SpecIsa.
Open Scope Z_scope.

''')
        for row in allrows(): f.write(coqrow(*row) + '\n')
