(* Generated from the declarations in xbyak_mnemonic.h and xbyak.h: the C++ types of the operand parameters of the methods of the
   tables of C20 (leg_params) and C44 (mix_params), in the order of the tables.  Suffixes of names: _ax (Address, Xmm), _a (Address),
   movd_mo, movd_om, movq_mq, movq_qm, movq_mo, movq_am: overloads (MixTables). *)
From Coq Require Import List String.
From Verif Require Import SpecReject.
Import ListNotations.
Open Scope list_scope.

Definition leg_params : list (string * list ptype) := [
  ("addps", [pX; pO]); ("addpd", [pX; pO]); ("addss", [pX; pO]); ("addsd", [pX; pO]); ("mulps", [pX; pO]); ("mulpd", [pX; pO]); ("mulss", [pX; pO]); ("mulsd", [pX; pO]);
  ("subps", [pX; pO]); ("subpd", [pX; pO]); ("subss", [pX; pO]); ("subsd", [pX; pO]); ("minps", [pX; pO]); ("minpd", [pX; pO]); ("minss", [pX; pO]); ("minsd", [pX; pO]);
  ("divps", [pX; pO]); ("divpd", [pX; pO]); ("divss", [pX; pO]); ("divsd", [pX; pO]); ("maxps", [pX; pO]); ("maxpd", [pX; pO]); ("maxss", [pX; pO]); ("maxsd", [pX; pO]);
  ("sqrtps", [pX; pO]); ("sqrtpd", [pX; pO]); ("sqrtss", [pX; pO]); ("sqrtsd", [pX; pO]); ("rsqrtps", [pX; pO]); ("rsqrtss", [pX; pO]); ("rcpps", [pX; pO]);
  ("rcpss", [pX; pO]); ("andps", [pX; pO]); ("andpd", [pX; pO]); ("andnps", [pX; pO]); ("andnpd", [pX; pO]); ("orps", [pX; pO]); ("orpd", [pX; pO]); ("xorps", [pX; pO]);
  ("xorpd", [pX; pO]); ("unpcklps", [pX; pO]); ("unpcklpd", [pX; pO]); ("unpckhps", [pX; pO]); ("unpckhpd", [pX; pO]); ("ucomiss", [pX; pO]); ("ucomisd", [pX; pO]);
  ("comiss", [pX; pO]); ("comisd", [pX; pO]); ("cvtps2pd", [pX; pO]); ("cvtpd2ps", [pX; pO]); ("cvtss2sd", [pX; pO]); ("cvtsd2ss", [pX; pO]); ("cvtdq2ps", [pX; pO]);
  ("cvtps2dq", [pX; pO]); ("cvttps2dq", [pX; pO]); ("cvttpd2dq", [pX; pO]); ("cvtdq2pd", [pX; pO]); ("cvtpd2dq", [pX; pO]); ("haddpd", [pX; pO]); ("haddps", [pX; pO]);
  ("hsubpd", [pX; pO]); ("hsubps", [pX; pO]); ("addsubpd", [pX; pO]); ("addsubps", [pX; pO]); ("punpcklqdq", [pX; pO]); ("punpckhqdq", [pX; pO]); ("movddup", [pX; pO]);
  ("movsldup", [pX; pO]); ("movshdup", [pX; pO]); ("packusdw", [pX; pO]); ("pcmpeqq", [pX; pO]); ("pcmpgtq", [pX; pO]); ("pmuldq", [pX; pO]); ("pmulld", [pX; pO]);
  ("pminsb", [pX; pO]); ("pminsd", [pX; pO]); ("pminuw", [pX; pO]); ("pminud", [pX; pO]); ("pmaxsb", [pX; pO]); ("pmaxsd", [pX; pO]); ("pmaxuw", [pX; pO]);
  ("pmaxud", [pX; pO]); ("phminposuw", [pX; pO]); ("pblendvb", [pX; pO]); ("blendvps", [pX; pO]); ("blendvpd", [pX; pO]); ("ptest", [pX; pO]); ("pmovsxbw", [pX; pO]);
  ("pmovsxbd", [pX; pO]); ("pmovsxbq", [pX; pO]); ("pmovsxwd", [pX; pO]); ("pmovsxwq", [pX; pO]); ("pmovsxdq", [pX; pO]); ("pmovzxbw", [pX; pO]); ("pmovzxbd", [pX; pO]);
  ("pmovzxbq", [pX; pO]); ("pmovzxwd", [pX; pO]); ("pmovzxwq", [pX; pO]); ("pmovzxdq", [pX; pO]); ("aesimc", [pX; pO]); ("aesenc", [pX; pO]); ("aesenclast", [pX; pO]);
  ("aesdec", [pX; pO]); ("aesdeclast", [pX; pO]); ("gf2p8mulb", [pX; pO]); ("cmpps", [pX; pO]); ("cmppd", [pX; pO]); ("cmpss", [pX; pO]); ("cmpsd", [pX; pO]);
  ("shufps", [pX; pO]); ("shufpd", [pX; pO]); ("roundps", [pX; pO]); ("roundpd", [pX; pO]); ("roundss", [pX; pO]); ("roundsd", [pX; pO]); ("blendps", [pX; pO]);
  ("blendpd", [pX; pO]); ("pblendw", [pX; pO]); ("insertps", [pX; pO]); ("dpps", [pX; pO]); ("dppd", [pX; pO]); ("mpsadbw", [pX; pO]); ("pclmulqdq", [pX; pO]);
  ("pcmpestrm", [pX; pO]); ("pcmpestri", [pX; pO]); ("pcmpistrm", [pX; pO]); ("pcmpistri", [pX; pO]); ("aeskeygenassist", [pX; pO]); ("gf2p8affineqb", [pX; pO]);
  ("gf2p8affineinvqb", [pX; pO]); ("punpcklbw", [pM; pO]); ("punpcklwd", [pM; pO]); ("punpckldq", [pM; pO]); ("packsswb", [pM; pO]); ("pcmpgtb", [pM; pO]);
  ("pcmpgtw", [pM; pO]); ("pcmpgtd", [pM; pO]); ("packuswb", [pM; pO]); ("punpckhbw", [pM; pO]); ("punpckhwd", [pM; pO]); ("punpckhdq", [pM; pO]);
  ("packssdw", [pM; pO]); ("pcmpeqb", [pM; pO]); ("pcmpeqw", [pM; pO]); ("pcmpeqd", [pM; pO]); ("psrlw", [pM; pO]); ("psrld", [pM; pO]); ("psrlq", [pM; pO]);
  ("paddq", [pM; pO]); ("pmullw", [pM; pO]); ("psubusb", [pM; pO]); ("psubusw", [pM; pO]); ("pminub", [pM; pO]); ("pand", [pM; pO]); ("paddusb", [pM; pO]);
  ("paddusw", [pM; pO]); ("pmaxub", [pM; pO]); ("pandn", [pM; pO]); ("pavgb", [pM; pO]); ("psraw", [pM; pO]); ("psrad", [pM; pO]); ("pavgw", [pM; pO]);
  ("pmulhuw", [pM; pO]); ("pmulhw", [pM; pO]); ("psubsb", [pM; pO]); ("psubsw", [pM; pO]); ("pminsw", [pM; pO]); ("por", [pM; pO]); ("paddsb", [pM; pO]);
  ("paddsw", [pM; pO]); ("pmaxsw", [pM; pO]); ("pxor", [pM; pO]); ("psllw", [pM; pO]); ("pslld", [pM; pO]); ("psllq", [pM; pO]); ("pmuludq", [pM; pO]);
  ("pmaddwd", [pM; pO]); ("psadbw", [pM; pO]); ("psubb", [pM; pO]); ("psubw", [pM; pO]); ("psubd", [pM; pO]); ("psubq", [pM; pO]); ("paddb", [pM; pO]);
  ("paddw", [pM; pO]); ("paddd", [pM; pO]); ("pshufb", [pM; pO]); ("phaddw", [pM; pO]); ("phaddd", [pM; pO]); ("phaddsw", [pM; pO]); ("pmaddubsw", [pM; pO]);
  ("phsubw", [pM; pO]); ("phsubd", [pM; pO]); ("phsubsw", [pM; pO]); ("psignb", [pM; pO]); ("psignw", [pM; pO]); ("psignd", [pM; pO]); ("pmulhrsw", [pM; pO]);
  ("pabsb", [pM; pO]); ("pabsw", [pM; pO]); ("pabsd", [pM; pO]); ("palignr", [pM; pO]); ("movups", [pX; pO]); ("movupd", [pX; pO]); ("movss", [pX; pO]);
  ("movsd", [pX; pO]); ("movaps", [pX; pO]); ("movapd", [pX; pO]); ("movdqa", [pX; pO]); ("movdqu", [pX; pO]); ("pshufd", [pM; pO]); ("pshufhw", [pM; pO]);
  ("pshuflw", [pM; pO]); ("pshufw", [pM; pO]); ("cmovo", [pR; pO]); ("seto", [pO]); ("cmovno", [pR; pO]); ("setno", [pO]); ("cmovb", [pR; pO]); ("setb", [pO]);
  ("cmovc", [pR; pO]); ("setc", [pO]); ("cmovnae", [pR; pO]); ("setnae", [pO]); ("cmovae", [pR; pO]); ("setae", [pO]); ("cmovnb", [pR; pO]); ("setnb", [pO]);
  ("cmovnc", [pR; pO]); ("setnc", [pO]); ("cmove", [pR; pO]); ("sete", [pO]); ("cmovz", [pR; pO]); ("setz", [pO]); ("cmovne", [pR; pO]); ("setne", [pO]);
  ("cmovnz", [pR; pO]); ("setnz", [pO]); ("cmovbe", [pR; pO]); ("setbe", [pO]); ("cmovna", [pR; pO]); ("setna", [pO]); ("cmova", [pR; pO]); ("seta", [pO]);
  ("cmovnbe", [pR; pO]); ("setnbe", [pO]); ("cmovs", [pR; pO]); ("sets", [pO]); ("cmovns", [pR; pO]); ("setns", [pO]); ("cmovp", [pR; pO]); ("setp", [pO]);
  ("cmovpe", [pR; pO]); ("setpe", [pO]); ("cmovnp", [pR; pO]); ("setnp", [pO]); ("cmovpo", [pR; pO]); ("setpo", [pO]); ("cmovl", [pR; pO]); ("setl", [pO]);
  ("cmovnge", [pR; pO]); ("setnge", [pO]); ("cmovge", [pR; pO]); ("setge", [pO]); ("cmovnl", [pR; pO]); ("setnl", [pO]); ("cmovle", [pR; pO]); ("setle", [pO]);
  ("cmovng", [pR; pO]); ("setng", [pO]); ("cmovg", [pR; pO]); ("setg", [pO]); ("cmovnle", [pR; pO]); ("setnle", [pO]); ("bsf", [pR; pO]); ("bsr", [pR; pO]);
  ("imul", [pR; pO]); ("bt", [pO; pR]); ("bts", [pO; pR]); ("btr", [pO; pR]); ("btc", [pO; pR]); ("popcnt", [pR; pO]); ("lzcnt", [pR; pO]); ("tzcnt", [pR; pO]);
  ("movzx", [pR; pO]); ("movsx", [pR; pO]); ("movsxd", [pR64; pO]); ("xadd", [pO; pR]); ("cmpxchg", [pO; pR]); ("test", [pO; pR]); ("add", [pO; pO]); ("add", [pO]);
  ("or", [pO; pO]); ("or", [pO]); ("adc", [pO; pO]); ("adc", [pO]); ("sbb", [pO; pO]); ("sbb", [pO]); ("and", [pO; pO]); ("and", [pO]); ("sub", [pO; pO]); ("sub", [pO]);
  ("xor", [pO; pO]); ("xor", [pO]); ("cmp", [pO; pO]); ("cmp", [pO]); ("mov", [pO; pO]); ("lea", [pR; pA]); ("movnti", [pA; pE]); ("aadd", [pA; pE]); ("aand", [pA; pE]);
  ("aor", [pA; pE]); ("axor", [pA; pE]); ("movdiri", [pA; pE]); ("movbe", [pR; pA]); ("movbe", [pA; pR]); ("adcx", [pE; pO]); ("adox", [pE; pO]); ("crc32", [pE; pO]);
  ("not", [pO]); ("neg", [pO]); ("mul", [pO]); ("imul", [pO]); ("div", [pO]); ("idiv", [pO]); ("inc", [pO]); ("dec", [pO]); ("rol", [pO]); ("rol", [pO; pR8]);
  ("ror", [pO]); ("ror", [pO; pR8]); ("rcl", [pO]); ("rcl", [pO; pR8]); ("rcr", [pO]); ("rcr", [pO; pR8]); ("shl", [pO]); ("shl", [pO; pR8]); ("sal", [pO]);
  ("sal", [pO; pR8]); ("shr", [pO]); ("shr", [pO; pR8]); ("sar", [pO]); ("sar", [pO; pR8]) ]%string.
Definition mix_params : list (string * list ptype) := [
  ("cldemote", [pA]); ("clflush", [pA]); ("clflushopt", [pA]); ("clwb", [pA]); ("cmpxchg8b", [pA]); ("cmpxchg16b", [pA]); ("fxrstor", [pA]); ("fxrstor64", [pA]);
  ("ldmxcsr", [pA]); ("stmxcsr", [pA]); ("prefetchnta", [pA]); ("prefetcht0", [pA]); ("prefetcht1", [pA]); ("prefetcht2", [pA]); ("prefetchit1", [pA]);
  ("prefetchit0", [pA]); ("prefetchw", [pA]); ("prefetchwt1", [pA]); ("fbld", [pA]); ("fbstp", [pA]); ("fldcw", [pA]); ("fldenv", [pA]); ("fnsave", [pA]);
  ("fnstcw", [pA]); ("fnstenv", [pA]); ("fnstsw_a", [pA]); ("frstor", [pA]); ("cvtpd2pi", [pR; pO]); ("cvttpd2pi", [pR; pO]); ("cvtps2pi", [pR; pO]);
  ("cvttps2pi", [pR; pO]); ("cvtpi2pd", [pR; pO]); ("cvtpi2ps", [pR; pO]); ("cvtsd2si", [pR; pO]); ("cvttsd2si", [pR; pO]); ("cvtss2si", [pR; pO]);
  ("cvttss2si", [pR; pO]); ("cvtsi2sd", [pR; pO]); ("cvtsi2ss", [pR; pO]); ("maskmovdqu", [pX; pX]); ("maskmovq", [pM; pM]); ("movdq2q", [pM; pX]);
  ("movq2dq", [pX; pM]); ("movhlps", [pX; pX]); ("movlhps", [pX; pX]); ("movmskps", [pE; pX]); ("lddqu", [pX; pA]); ("movntdqa", [pX; pA]); ("movaps_ax", [pA; pX]);
  ("movapd_ax", [pA; pX]); ("movups_ax", [pA; pX]); ("movupd_ax", [pA; pX]); ("movdqa_ax", [pA; pX]); ("movdqu_ax", [pA; pX]); ("movss_ax", [pA; pX]);
  ("movsd_ax", [pA; pX]); ("movntdq", [pA; pX]); ("movntpd", [pA; pX]); ("movntps", [pA; pX]); ("movntq", [pA; pM]); ("movd_mo", [pM; pO]); ("movd_om", [pO; pM]);
  ("movq_mq", [pM; pR64]); ("movq_qm", [pR64; pM]); ("movq_mo", [pM; pO]); ("movq_am", [pA; pM]); ("pmovmskb", [pE; pM]); ("movmskpd", [pE; pX]); ("pinsrb", [pX; pO]);
  ("pinsrd", [pX; pO]); ("pinsrw", [pM; pO]); ("pinsrw", [pM; pO]); ("pinsrq", [pX; pO]); ("pextrq", [pO; pX]); ("pextrb", [pO; pX]); ("extractps", [pO; pX]);
  ("pextrd", [pO; pX]); ("movhps", [pO; pO]); ("movhps", [pO; pO]); ("movhpd", [pO; pO]); ("movhpd", [pO; pO]); ("movlps", [pO; pO]); ("movlps", [pO; pO]);
  ("movlpd", [pO; pO]); ("movlpd", [pO; pO]); ("psllw", [pM]); ("pslld", [pM]); ("psllq", [pM]); ("psraw", [pM]); ("psrad", [pM]); ("psrlw", [pM]); ("psrld", [pM]);
  ("psrlq", [pM]); ("pslldq", [pX]); ("psrldq", [pX]); ("rdrand", [pR]); ("rdseed", [pR]); ("rdfsbase", [pE]); ("rdgsbase", [pE]); ("wrfsbase", [pE]);
  ("wrgsbase", [pE]); ("senduipi", [pR64]); ("fadd", [pA]); ("fcom", [pA]); ("fcomp", [pA]); ("fdiv", [pA]); ("fdivr", [pA]); ("fmul", [pA]); ("fsub", [pA]);
  ("fsubr", [pA]); ("fiadd", [pA]); ("ficom", [pA]); ("ficomp", [pA]); ("fidiv", [pA]); ("fidivr", [pA]); ("fimul", [pA]); ("fisub", [pA]); ("fisubr", [pA]);
  ("fild", [pA]); ("fist", [pA]); ("fistp", [pA]); ("fisttp", [pA]); ("fld", [pA]); ("fst", [pA]); ("fstp", [pA]); ("bndcl", [pB; pO]); ("bndcu", [pB; pO]);
  ("bndcn", [pB; pO]); ("bndmk", [pB; pA]); ("bndmov", [pA; pB]); ("bndmov", [pB; pO]); ("bndldx", [pB; pA]); ("bndstx", [pA; pB]); ("lss", [pR; pA]); ("lfs", [pR; pA]);
  ("lgs", [pR; pA]); ("sha1nexte", [pX; pO]); ("sha1msg1", [pX; pO]); ("sha1msg2", [pX; pO]); ("sha256rnds2", [pX; pO]); ("sha256msg1", [pX; pO]);
  ("sha256msg2", [pX; pO]); ("sha1rnds4", [pX; pO]); ("aesenc128kl", [pX; pA]); ("aesdec128kl", [pX; pA]); ("aesenc256kl", [pX; pA]); ("aesdec256kl", [pX; pA]);
  ("aesencwide128kl", [pA]); ("aesdecwide128kl", [pA]); ("aesencwide256kl", [pA]); ("aesdecwide256kl", [pA]); ("bt", [pO]); ("bts", [pO]); ("btr", [pO]); ("btc", [pO]);
  ("movdir64b", [pR; pA]); ("pextrw", [pO; pM]); ("pextrw", [pO; pM]); ("in_", [pR; pR]); ("out_", [pR; pR]); ("in_", [pR]); ("out_", [pR]); ("fsave", [pA]);
  ("fstcw", [pA]); ("fstenv", [pA]); ("fstsw_a", [pA]) ]%string.
