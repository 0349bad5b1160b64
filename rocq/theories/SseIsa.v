(* Generated by tools/ssetab.py.  Specification: SSE instructions (Intel SDM vol. 2): encoding, form and meaning. *)
From Coq Require Import ZArith List String.
From Verif Require Import Base SpecIsa SpecExec SpecVec SpecSse.
Import ListNotations.
Open Scope Z_scope.
Definition sse_isa : list (string * sserow) := [
  ("addps"%string, mkSse NP 1 0x58 false Two (MLane (Fp FAdd) 32));
  ("addpd"%string, mkSse P66 1 0x58 false Two (MLane (Fp FAdd) 64));
  ("addss"%string, mkSse PF3 1 0x58 false Two (MScalar (Fp FAdd) 32));
  ("addsd"%string, mkSse PF2 1 0x58 false Two (MScalar (Fp FAdd) 64));
  ("mulps"%string, mkSse NP 1 0x59 false Two (MLane (Fp FMul) 32));
  ("mulpd"%string, mkSse P66 1 0x59 false Two (MLane (Fp FMul) 64));
  ("mulss"%string, mkSse PF3 1 0x59 false Two (MScalar (Fp FMul) 32));
  ("mulsd"%string, mkSse PF2 1 0x59 false Two (MScalar (Fp FMul) 64));
  ("subps"%string, mkSse NP 1 0x5C false Two (MLane (Fp FSub) 32));
  ("subpd"%string, mkSse P66 1 0x5C false Two (MLane (Fp FSub) 64));
  ("subss"%string, mkSse PF3 1 0x5C false Two (MScalar (Fp FSub) 32));
  ("subsd"%string, mkSse PF2 1 0x5C false Two (MScalar (Fp FSub) 64));
  ("minps"%string, mkSse NP 1 0x5D false Two (MLane (Fp FMin) 32));
  ("minpd"%string, mkSse P66 1 0x5D false Two (MLane (Fp FMin) 64));
  ("minss"%string, mkSse PF3 1 0x5D false Two (MScalar (Fp FMin) 32));
  ("minsd"%string, mkSse PF2 1 0x5D false Two (MScalar (Fp FMin) 64));
  ("divps"%string, mkSse NP 1 0x5E false Two (MLane (Fp FDiv) 32));
  ("divpd"%string, mkSse P66 1 0x5E false Two (MLane (Fp FDiv) 64));
  ("divss"%string, mkSse PF3 1 0x5E false Two (MScalar (Fp FDiv) 32));
  ("divsd"%string, mkSse PF2 1 0x5E false Two (MScalar (Fp FDiv) 64));
  ("maxps"%string, mkSse NP 1 0x5F false Two (MLane (Fp FMax) 32));
  ("maxpd"%string, mkSse P66 1 0x5F false Two (MLane (Fp FMax) 64));
  ("maxss"%string, mkSse PF3 1 0x5F false Two (MScalar (Fp FMax) 32));
  ("maxsd"%string, mkSse PF2 1 0x5F false Two (MScalar (Fp FMax) 64));
  ("sqrtps"%string, mkSse NP 1 0x51 false One (MLane (Fp FSqrt) 32));
  ("sqrtpd"%string, mkSse P66 1 0x51 false One (MLane (Fp FSqrt) 64));
  ("sqrtss"%string, mkSse PF3 1 0x51 false Two (MScalar (Fp2 FSqrt) 32));
  ("sqrtsd"%string, mkSse PF2 1 0x51 false Two (MScalar (Fp2 FSqrt) 64));
  ("rsqrtps"%string, mkSse NP 1 0x52 false One (MLane (Fp FRsqrt) 32));
  ("rsqrtss"%string, mkSse PF3 1 0x52 false Two (MScalar (Fp2 FRsqrt) 32));
  ("rcpps"%string, mkSse NP 1 0x53 false One (MLane (Fp FRcp) 32));
  ("rcpss"%string, mkSse PF3 1 0x53 false Two (MScalar (Fp2 FRcp) 32));
  ("andps"%string, mkSse NP 1 0x54 false Two (MLane And 32));
  ("andpd"%string, mkSse P66 1 0x54 false Two (MLane And 64));
  ("andnps"%string, mkSse NP 1 0x55 false Two (MLane Andn 32));
  ("andnpd"%string, mkSse P66 1 0x55 false Two (MLane Andn 64));
  ("orps"%string, mkSse NP 1 0x56 false Two (MLane Or 32));
  ("orpd"%string, mkSse P66 1 0x56 false Two (MLane Or 64));
  ("xorps"%string, mkSse NP 1 0x57 false Two (MLane Xor 32));
  ("xorpd"%string, mkSse P66 1 0x57 false Two (MLane Xor 64));
  ("unpcklps"%string, mkSse NP 1 0x14 false Two (MUnpack false 32));
  ("unpcklpd"%string, mkSse P66 1 0x14 false Two (MUnpack false 64));
  ("unpckhps"%string, mkSse NP 1 0x15 false Two (MUnpack true 32));
  ("unpckhpd"%string, mkSse P66 1 0x15 false Two (MUnpack true 64));
  ("cvtdq2ps"%string, mkSse NP 1 0x5B false One (MLane (Fp FOfS) 32));
  ("cvtps2dq"%string, mkSse P66 1 0x5B false One (MLane (Fp FToS) 32));
  ("cvttps2dq"%string, mkSse PF3 1 0x5B false One (MLane (Fp FTruncS) 32));
  ("punpcklqdq"%string, mkSse P66 1 0x6C false Two (MUnpack false 64));
  ("punpckhqdq"%string, mkSse P66 1 0x6D false Two (MUnpack true 64));
  ("movsldup"%string, mkSse PF3 1 0x12 false One (MDup false 32));
  ("movshdup"%string, mkSse PF3 1 0x16 false One (MDup true 32));
  ("pcmpeqq"%string, mkSse P66 2 0x29 false Two (MLane Eq 64));
  ("pcmpgtq"%string, mkSse P66 2 0x37 false Two (MLane Gts 64));
  ("pmuldq"%string, mkSse P66 2 0x28 false Two (MLane Muls32 64));
  ("pmulld"%string, mkSse P66 2 0x40 false Two (MLane Mullo 32));
  ("pminsb"%string, mkSse P66 2 0x38 false Two (MLane Mins 8));
  ("pminsd"%string, mkSse P66 2 0x39 false Two (MLane Mins 32));
  ("pminuw"%string, mkSse P66 2 0x3A false Two (MLane Minu 16));
  ("pminud"%string, mkSse P66 2 0x3B false Two (MLane Minu 32));
  ("pmaxsb"%string, mkSse P66 2 0x3C false Two (MLane Maxs 8));
  ("pmaxsd"%string, mkSse P66 2 0x3D false Two (MLane Maxs 32));
  ("pmaxuw"%string, mkSse P66 2 0x3E false Two (MLane Maxu 16));
  ("pmaxud"%string, mkSse P66 2 0x3F false Two (MLane Maxu 32));
  ("pmovsxbw"%string, mkSse P66 2 0x20 false One (MExt true 16 8));
  ("pmovsxbd"%string, mkSse P66 2 0x21 false One (MExt true 32 8));
  ("pmovsxbq"%string, mkSse P66 2 0x22 false One (MExt true 64 8));
  ("pmovsxwd"%string, mkSse P66 2 0x23 false One (MExt true 32 16));
  ("pmovsxwq"%string, mkSse P66 2 0x24 false One (MExt true 64 16));
  ("pmovsxdq"%string, mkSse P66 2 0x25 false One (MExt true 64 32));
  ("pmovzxbw"%string, mkSse P66 2 0x30 false One (MExt false 16 8));
  ("pmovzxbd"%string, mkSse P66 2 0x31 false One (MExt false 32 8));
  ("pmovzxbq"%string, mkSse P66 2 0x32 false One (MExt false 64 8));
  ("pmovzxwd"%string, mkSse P66 2 0x33 false One (MExt false 32 16));
  ("pmovzxwq"%string, mkSse P66 2 0x34 false One (MExt false 64 16));
  ("pmovzxdq"%string, mkSse P66 2 0x35 false One (MExt false 64 32));
  ("cmpps"%string, mkSse NP 1 0xC2 true Two (MLane (FpI FCmp) 32));
  ("cmppd"%string, mkSse P66 1 0xC2 true Two (MLane (FpI FCmp) 64));
  ("cmpss"%string, mkSse PF3 1 0xC2 true Two (MScalar (FpI FCmp) 32));
  ("cmpsd"%string, mkSse PF2 1 0xC2 true Two (MScalar (FpI FCmp) 64));
  ("roundps"%string, mkSse P66 3 0x08 true One (MLane (FpI FRound) 32));
  ("roundpd"%string, mkSse P66 3 0x09 true One (MLane (FpI FRound) 64));
  ("roundss"%string, mkSse P66 3 0x0A true Two (MScalar (Fp2I FRound) 32));
  ("roundsd"%string, mkSse P66 3 0x0B true Two (MScalar (Fp2I FRound) 64));
  ("punpcklbw"%string, mkSse P66 1 0x60 false Two (MUnpack false 8));
  ("punpcklwd"%string, mkSse P66 1 0x61 false Two (MUnpack false 16));
  ("punpckldq"%string, mkSse P66 1 0x62 false Two (MUnpack false 32));
  ("pcmpgtb"%string, mkSse P66 1 0x64 false Two (MLane Gts 8));
  ("pcmpgtw"%string, mkSse P66 1 0x65 false Two (MLane Gts 16));
  ("pcmpgtd"%string, mkSse P66 1 0x66 false Two (MLane Gts 32));
  ("punpckhbw"%string, mkSse P66 1 0x68 false Two (MUnpack true 8));
  ("punpckhwd"%string, mkSse P66 1 0x69 false Two (MUnpack true 16));
  ("punpckhdq"%string, mkSse P66 1 0x6A false Two (MUnpack true 32));
  ("pcmpeqb"%string, mkSse P66 1 0x74 false Two (MLane Eq 8));
  ("pcmpeqw"%string, mkSse P66 1 0x75 false Two (MLane Eq 16));
  ("pcmpeqd"%string, mkSse P66 1 0x76 false Two (MLane Eq 32));
  ("paddq"%string, mkSse P66 1 0xD4 false Two (MLane Add 64));
  ("pmullw"%string, mkSse P66 1 0xD5 false Two (MLane Mullo 16));
  ("psubusb"%string, mkSse P66 1 0xD8 false Two (MLane Subus 8));
  ("psubusw"%string, mkSse P66 1 0xD9 false Two (MLane Subus 16));
  ("pminub"%string, mkSse P66 1 0xDA false Two (MLane Minu 8));
  ("pand"%string, mkSse P66 1 0xDB false Two (MLane And 64));
  ("paddusb"%string, mkSse P66 1 0xDC false Two (MLane Addus 8));
  ("paddusw"%string, mkSse P66 1 0xDD false Two (MLane Addus 16));
  ("pmaxub"%string, mkSse P66 1 0xDE false Two (MLane Maxu 8));
  ("pandn"%string, mkSse P66 1 0xDF false Two (MLane Andn 64));
  ("pavgb"%string, mkSse P66 1 0xE0 false Two (MLane Avg 8));
  ("pavgw"%string, mkSse P66 1 0xE3 false Two (MLane Avg 16));
  ("pmulhuw"%string, mkSse P66 1 0xE4 false Two (MLane Mulhu 16));
  ("pmulhw"%string, mkSse P66 1 0xE5 false Two (MLane Mulhs 16));
  ("psubsb"%string, mkSse P66 1 0xE8 false Two (MLane Subs 8));
  ("psubsw"%string, mkSse P66 1 0xE9 false Two (MLane Subs 16));
  ("pminsw"%string, mkSse P66 1 0xEA false Two (MLane Mins 16));
  ("por"%string, mkSse P66 1 0xEB false Two (MLane Or 64));
  ("paddsb"%string, mkSse P66 1 0xEC false Two (MLane Adds 8));
  ("paddsw"%string, mkSse P66 1 0xED false Two (MLane Adds 16));
  ("pmaxsw"%string, mkSse P66 1 0xEE false Two (MLane Maxs 16));
  ("pxor"%string, mkSse P66 1 0xEF false Two (MLane Xor 64));
  ("pmuludq"%string, mkSse P66 1 0xF4 false Two (MLane Mulu32 64));
  ("psubb"%string, mkSse P66 1 0xF8 false Two (MLane Sub 8));
  ("psubw"%string, mkSse P66 1 0xF9 false Two (MLane Sub 16));
  ("psubd"%string, mkSse P66 1 0xFA false Two (MLane Sub 32));
  ("psubq"%string, mkSse P66 1 0xFB false Two (MLane Sub 64));
  ("paddb"%string, mkSse P66 1 0xFC false Two (MLane Add 8));
  ("paddw"%string, mkSse P66 1 0xFD false Two (MLane Add 16));
  ("paddd"%string, mkSse P66 1 0xFE false Two (MLane Add 32));
  ("pshufb"%string, mkSse P66 2 0x00 false Two (MShufB));
  ("psignb"%string, mkSse P66 2 0x08 false Two (MLane Sign 8));
  ("psignw"%string, mkSse P66 2 0x09 false Two (MLane Sign 16));
  ("psignd"%string, mkSse P66 2 0x0A false Two (MLane Sign 32));
  ("pmulhrsw"%string, mkSse P66 2 0x0B false Two (MLane Mulhrs 16));
  ("pabsb"%string, mkSse P66 2 0x1C false One (MLane Abs 8));
  ("pabsw"%string, mkSse P66 2 0x1D false One (MLane Abs 16));
  ("pabsd"%string, mkSse P66 2 0x1E false One (MLane Abs 32));
  ("movups"%string, mkSse NP 1 0x10 false One (MLane Mov 32));
  ("movupd"%string, mkSse P66 1 0x10 false One (MLane Mov 64));
  ("movss"%string, mkSse PF3 1 0x10 false One (MOne 32));
  ("movsd"%string, mkSse PF2 1 0x10 false One (MOne 64));
  ("movaps"%string, mkSse NP 1 0x28 false One (MLane Mov 32));
  ("movapd"%string, mkSse P66 1 0x28 false One (MLane Mov 64));
  ("movdqa"%string, mkSse P66 1 0x6F false One (MLane Mov 64));
  ("movdqu"%string, mkSse PF3 1 0x6F false One (MLane Mov 64));
  ("pshufd"%string, mkSse P66 1 0x70 true One (MShuf 32 128));
  ("movaps_ax"%string, mkSse NP 1 0x29 false Store (MLane Mov 32));
  ("movapd_ax"%string, mkSse P66 1 0x29 false Store (MLane Mov 64));
  ("movups_ax"%string, mkSse NP 1 0x11 false Store (MLane Mov 32));
  ("movupd_ax"%string, mkSse P66 1 0x11 false Store (MLane Mov 64));
  ("movdqa_ax"%string, mkSse P66 1 0x7F false Store (MLane Mov 64));
  ("movdqu_ax"%string, mkSse PF3 1 0x7F false Store (MLane Mov 64));
  ("movss_ax"%string, mkSse PF3 1 0x11 false Store (MOne 32));
  ("movsd_ax"%string, mkSse PF2 1 0x11 false Store (MOne 64))].
Definition sse_proc : list sserow := map snd sse_isa.
Definition sse_named (n : string) : option sserow := match find (fun t => String.eqb n (fst t)) sse_isa with Some t => Some (snd t) | None => None end.
