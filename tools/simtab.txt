aadd aand adc_oo adcx_eo add_oo addpd addps addsd addss addsubpd addsubps adox_eo aesdec aesdeclast aesenc aesenclast aesimc aeskeygenassist and__oo andnpd andnps andpd andps aor axor blendpd blendps blendvpd blendvps bndmk bndmov_an bndmov_no bsf bsr bt_or btc_or btr_or bts_or cmova_ro cmovae_ro cmovb_ro cmovbe_ro cmovc_ro cmove_ro cmovg_ro cmovge_ro cmovl_ro cmovle_ro cmovna_ro cmovnae_ro cmovnb_ro cmovnbe_ro cmovnc_ro cmovne_ro cmovng_ro cmovnge_ro cmovnl_ro cmovnle_ro cmovno_ro cmovnp_ro cmovns_ro cmovnz_ro cmovo_ro cmovp_ro cmovpe_ro cmovpo_ro cmovs_ro cmovz_ro cmp_oo cmppd cmpeqpd cmpps cmpeqps cmpsd_xoi cmpeqsd cmpss cmpeqss cmplepd cmpleps cmplesd cmpless cmpltpd cmpltps cmpltsd cmpltss cmpneqpd cmpneqps cmpneqsd cmpneqss cmpnlepd cmpnleps cmpnlesd cmpnless cmpnltpd cmpnltps cmpnltsd cmpnltss cmpordpd cmpordps cmpordsd cmpordss cmpunordpd cmpunordps cmpunordsd cmpunordss cmpxchg comisd comiss crc32 cvtdq2pd cvtdq2ps cvtpd2dq cvtpd2pi cvtpd2ps cvtpi2pd cvtpi2ps cvtps2dq cvtps2pd cvtps2pi cvtsd2si cvtsd2ss cvtsi2sd cvtsi2ss cvtss2sd cvtss2si cvttpd2dq cvttpd2pi cvttps2dq cvttps2pi cvttsd2si cvttss2si divpd divps divsd divss dppd dpps extractps gf2p8affineinvqb gf2p8affineqb gf2p8mulb haddpd haddps hsubpd hsubps imul_ro insertps lddqu lzcnt maskmovdqu maskmovq maxpd maxps maxsd maxss minpd minps minsd minss movapd_ax movapd_xo movaps_ax movaps_xo movbe_ar movbe_ra movd_mo movd_om movddup movdiri movdq2q movdqa_ax movdqa_xo movdqu_ax movdqu_xo movhlps movhpd movhps movlhps movlpd movlps movmskps movmskpd movntdqa movnti movntq movq_am movq_mo movq2dq movsd_ax movsd_xo movshdup movsldup movss_ax movss_xo movsx movupd_ax movupd_xo movups_ax movups_xo movzx mpsadbw mulpd mulps mulsd mulss or__oo orpd orps pabsb pabsd pabsw packssdw packsswb packusdw packuswb paddb paddd paddq paddsb paddsw paddusb paddusw paddw palignr pand pandn pavgb pavgw pblendvb pblendw pclmulqdq pclmulhqhqdq pclmulhqlqdq pclmullqhqdq pclmullqlqdq pcmpeqb pcmpeqd pcmpeqq pcmpeqw pcmpestri pcmpestrm pcmpgtb pcmpgtd pcmpgtq pcmpgtw pcmpistri pcmpistrm pextrb pextrd pextrw phaddd phaddsw phaddw phminposuw phsubd phsubsw phsubw pinsrb pinsrd pinsrw pmaddubsw pmaddwd pmaxsb pmaxsd pmaxsw pmaxub pmaxud pmaxuw pminsb pminsd pminsw pminub pminud pminuw pmovmskb pmovsxbd pmovsxbq pmovsxbw pmovsxdq pmovsxwd pmovsxwq pmovzxbd pmovzxbq pmovzxbw pmovzxdq pmovzxwd pmovzxwq pmuldq pmulhrsw pmulhuw pmulhw pmulld pmullw pmuludq popcnt por psadbw pshufb pshufd pshufhw pshuflw pshufw psignb psignd psignw pslld_mo psllq_mo psllw_mo psrad_mo psraw_mo psrld_mo psrlq_mo psrlw_mo psubb psubd psubq psubsb psubsw psubusb psubusw psubw ptest punpckhbw punpckhdq punpckhqdq punpckhwd punpcklbw punpckldq punpcklqdq punpcklwd pxor rcpps rcpss roundpd roundps roundsd roundss rsqrtps rsqrtss sbb_oo sha1msg1 sha1msg2 sha1nexte sha1rnds4 sha256msg1 sha256msg2 sha256rnds2 shld_orb shld_ori shld_rorb shld_rori shrd_orb shrd_ori shrd_rorb shrd_rori shufpd shufps sqrtpd sqrtps sqrtsd sqrtss sub_oo subpd subps subsd subss tzcnt ucomisd ucomiss unpckhpd unpckhps unpcklpd unpcklps xadd xor__oo xorpd xorps and_oo or_oo xor_oo test_ imul_imm
