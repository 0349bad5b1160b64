(* Every instruction method that depends on the build and exists in both: the call in the 32-bit build and the
   corresponding call in the 64-bit build, all parameters arbitrary.  Not in the table: bndldx, bndstx, dec_o, dec_ro, inc_o, inc_ro, lea, umonitor, vfpclasspbf16, vmovmskpd, vmovmskps, see PropB32.v.
   Produced by tools/simtab.py. *)
From Coq Require Import ZArith List Bool String Lia.
From Verif Require Import Base Types Emit Encode Encode32 Mnemonic MnemonicAvx MnemonicOmit Mnemonic32 MnemonicAvx32 MnemonicOmit32 Spec32 SpecB32 Sim32 Sim32b Sim32c Sim32d.
Import ListNotations.
Open Scope Z_scope. Open Scope string_scope.

(* the methods that, in the 64-bit build, compare the size of a memory operand with the size of a register *)
Definition sized_methods : list string :=
  ["aadd"; "aand"; "adc_oo"; "adcx_eo"; "add_oo"; "addpd"; "addps"; "addsd"; "addss"; "addsubpd"; "addsubps"; "adox_eo"; "aesdec"; "aesdeclast"; "aesenc"; "aesenclast"; "aesimc"; "aeskeygenassist"; "and__oo"; "andnpd"; "andnps"; "andpd"; "andps"; "aor"; "axor"; "blendpd"; "blendps"; "blendvpd"; "blendvps"; "bndmk"; "bndmov_an"; "bndmov_no"; "bsf"; "bsr"; "bt_or"; "btc_or"; "btr_or"; "bts_or"; "cmova_ro"; "cmovae_ro"; "cmovb_ro"; "cmovbe_ro"; "cmovc_ro"; "cmove_ro"; "cmovg_ro"; "cmovge_ro"; "cmovl_ro"; "cmovle_ro"; "cmovna_ro"; "cmovnae_ro"; "cmovnb_ro"; "cmovnbe_ro"; "cmovnc_ro"; "cmovne_ro"; "cmovng_ro"; "cmovnge_ro"; "cmovnl_ro"; "cmovnle_ro"; "cmovno_ro"; "cmovnp_ro"; "cmovns_ro"; "cmovnz_ro"; "cmovo_ro"; "cmovp_ro"; "cmovpe_ro"; "cmovpo_ro"; "cmovs_ro"; "cmovz_ro"; "cmp_oo"; "cmppd"; "cmpeqpd"; "cmpps"; "cmpeqps"; "cmpsd_xoi"; "cmpeqsd"; "cmpss"; "cmpeqss"; "cmplepd"; "cmpleps"; "cmplesd"; "cmpless"; "cmpltpd"; "cmpltps"; "cmpltsd"; "cmpltss"; "cmpneqpd"; "cmpneqps"; "cmpneqsd"; "cmpneqss"; "cmpnlepd"; "cmpnleps"; "cmpnlesd"; "cmpnless"; "cmpnltpd"; "cmpnltps"; "cmpnltsd"; "cmpnltss"; "cmpordpd"; "cmpordps"; "cmpordsd"; "cmpordss"; "cmpunordpd"; "cmpunordps"; "cmpunordsd"; "cmpunordss"; "cmpxchg"; "comisd"; "comiss"; "crc32"; "cvtdq2pd"; "cvtdq2ps"; "cvtpd2dq"; "cvtpd2pi"; "cvtpd2ps"; "cvtpi2pd"; "cvtpi2ps"; "cvtps2dq"; "cvtps2pd"; "cvtps2pi"; "cvtsd2si"; "cvtsd2ss"; "cvtsi2sd"; "cvtsi2ss"; "cvtss2sd"; "cvtss2si"; "cvttpd2dq"; "cvttpd2pi"; "cvttps2dq"; "cvttps2pi"; "cvttsd2si"; "cvttss2si"; "divpd"; "divps"; "divsd"; "divss"; "dppd"; "dpps"; "extractps"; "gf2p8affineinvqb"; "gf2p8affineqb"; "gf2p8mulb"; "haddpd"; "haddps"; "hsubpd"; "hsubps"; "imul_ro"; "insertps"; "lddqu"; "lzcnt"; "maskmovdqu"; "maskmovq"; "maxpd"; "maxps"; "maxsd"; "maxss"; "minpd"; "minps"; "minsd"; "minss"; "movapd_ax"; "movapd_xo"; "movaps_ax"; "movaps_xo"; "movbe_ar"; "movbe_ra"; "movd_mo"; "movd_om"; "movddup"; "movdiri"; "movdq2q"; "movdqa_ax"; "movdqa_xo"; "movdqu_ax"; "movdqu_xo"; "movhlps"; "movhpd"; "movhps"; "movlhps"; "movlpd"; "movlps"; "movmskps"; "movmskpd"; "movntdqa"; "movnti"; "movntq"; "movq_am"; "movq_mo"; "movq2dq"; "movsd_ax"; "movsd_xo"; "movshdup"; "movsldup"; "movss_ax"; "movss_xo"; "movsx"; "movupd_ax"; "movupd_xo"; "movups_ax"; "movups_xo"; "movzx"; "mpsadbw"; "mulpd"; "mulps"; "mulsd"; "mulss"; "or__oo"; "orpd"; "orps"; "pabsb"; "pabsd"; "pabsw"; "packssdw"; "packsswb"; "packusdw"; "packuswb"; "paddb"; "paddd"; "paddq"; "paddsb"; "paddsw"; "paddusb"; "paddusw"; "paddw"; "palignr"; "pand"; "pandn"; "pavgb"; "pavgw"; "pblendvb"; "pblendw"; "pclmulqdq"; "pclmulhqhqdq"; "pclmulhqlqdq"; "pclmullqhqdq"; "pclmullqlqdq"; "pcmpeqb"; "pcmpeqd"; "pcmpeqq"; "pcmpeqw"; "pcmpestri"; "pcmpestrm"; "pcmpgtb"; "pcmpgtd"; "pcmpgtq"; "pcmpgtw"; "pcmpistri"; "pcmpistrm"; "pextrb"; "pextrd"; "pextrw"; "phaddd"; "phaddsw"; "phaddw"; "phminposuw"; "phsubd"; "phsubsw"; "phsubw"; "pinsrb"; "pinsrd"; "pinsrw"; "pmaddubsw"; "pmaddwd"; "pmaxsb"; "pmaxsd"; "pmaxsw"; "pmaxub"; "pmaxud"; "pmaxuw"; "pminsb"; "pminsd"; "pminsw"; "pminub"; "pminud"; "pminuw"; "pmovmskb"; "pmovsxbd"; "pmovsxbq"; "pmovsxbw"; "pmovsxdq"; "pmovsxwd"; "pmovsxwq"; "pmovzxbd"; "pmovzxbq"; "pmovzxbw"; "pmovzxdq"; "pmovzxwd"; "pmovzxwq"; "pmuldq"; "pmulhrsw"; "pmulhuw"; "pmulhw"; "pmulld"; "pmullw"; "pmuludq"; "popcnt"; "por"; "psadbw"; "pshufb"; "pshufd"; "pshufhw"; "pshuflw"; "pshufw"; "psignb"; "psignd"; "psignw"; "pslld_mo"; "psllq_mo"; "psllw_mo"; "psrad_mo"; "psraw_mo"; "psrld_mo"; "psrlq_mo"; "psrlw_mo"; "psubb"; "psubd"; "psubq"; "psubsb"; "psubsw"; "psubusb"; "psubusw"; "psubw"; "ptest"; "punpckhbw"; "punpckhdq"; "punpckhqdq"; "punpckhwd"; "punpcklbw"; "punpckldq"; "punpcklqdq"; "punpcklwd"; "pxor"; "rcpps"; "rcpss"; "roundpd"; "roundps"; "roundsd"; "roundss"; "rsqrtps"; "rsqrtss"; "sbb_oo"; "sha1msg1"; "sha1msg2"; "sha1nexte"; "sha1rnds4"; "sha256msg1"; "sha256msg2"; "sha256rnds2"; "shld_orb"; "shld_ori"; "shld_rorb"; "shld_rori"; "shrd_orb"; "shrd_ori"; "shrd_rorb"; "shrd_rori"; "shufpd"; "shufps"; "sqrtpd"; "sqrtps"; "sqrtsd"; "sqrtss"; "sub_oo"; "subpd"; "subps"; "subsd"; "subss"; "tzcnt"; "ucomisd"; "ucomiss"; "unpckhpd"; "unpckhps"; "unpcklpd"; "unpcklps"; "xadd"; "xor__oo"; "xorpd"; "xorps"; "and_oo"; "or_oo"; "xor_oo"; "test_"; "imul_imm"].
Definition same := entry_same sized_methods.
Lemma free_row x : (forall v, args32 v -> bsame True (b_call32 x v) (b_call64 x v)) -> same x.
Proof. intros H v A. destruct (H v A) as [P Q]. split; [exact P|]. intros _. exact (Q Logic.I). Qed.
Lemma sized_row x : existsb (String.eqb (b_name x)) sized_methods = true ->
  (forall v, args32 v -> bsame (args_fit v) (b_call32 x v) (b_call64 x v)) -> same x.
Proof. intros K H v A. destruct (H v A) as [P Q]. split; [exact P|]. intros M. exact (Q (M K)). Qed.
Ltac row := apply Forall_cons; [apply free_row; intros [o a r n e s] (Ho & Ha & Hr & Hm); cbn [b_call32 b_call64 ar_o ar_a ar_r ar_n ar_e ar_s] in *|].
Ltac srow_ := apply Forall_cons; [apply sized_row; [reflexivity|]; intros [o a r n e s] (Ho & Ha & Hr & Hm); cbn [b_call32 b_call64 ar_o ar_a ar_r ar_n ar_e ar_s] in *|].

Definition sims0 : list b_entry :=
  [mkB "aadd" (fun v => let (o, a, r, n, e, s) := v in Mnemonic32.i_aadd (a 0) (r 1))
     (fun v => let (o, a, r, n, e, s) := v in Mnemonic.i_aadd (widen_addr (a 0)) (r 1));
   mkB "aand" (fun v => let (o, a, r, n, e, s) := v in Mnemonic32.i_aand (a 0) (r 1))
     (fun v => let (o, a, r, n, e, s) := v in Mnemonic.i_aand (widen_addr (a 0)) (r 1));
   mkB "adc_oi" (fun v => let (o, a, r, n, e, s) := v in Mnemonic32.i_adc_oi (o 0) (n 1))
     (fun v => let (o, a, r, n, e, s) := v in Mnemonic.i_adc_oi (widen_op (o 0)) (n 1));
   mkB "adc_oo" (fun v => let (o, a, r, n, e, s) := v in Mnemonic32.i_adc_oo (o 0) (o 1))
     (fun v => let (o, a, r, n, e, s) := v in Mnemonic.i_adc_oo (widen_op (o 0)) (widen_op (o 1)));
   mkB "adc_roi" (fun v => let (o, a, r, n, e, s) := v in Mnemonic32.i_adc_roi (r 0) (o 1) (n 2))
     (fun v => let (o, a, r, n, e, s) := v in Mnemonic.i_adc_roi (r 0) (widen_op (o 1)) (n 2));
   mkB "adc_roo" (fun v => let (o, a, r, n, e, s) := v in Mnemonic32.i_adc_roo (r 0) (o 1) (o 2))
     (fun v => let (o, a, r, n, e, s) := v in Mnemonic.i_adc_roo (r 0) (widen_op (o 1)) (widen_op (o 2)));
   mkB "adcx_eeo" (fun v => let (o, a, r, n, e, s) := v in Mnemonic32.i_adcx_eeo (r 0) (r 1) (o 2))
     (fun v => let (o, a, r, n, e, s) := v in Mnemonic.i_adcx_eeo (r 0) (r 1) (widen_op (o 2)));
   mkB "adcx_eo" (fun v => let (o, a, r, n, e, s) := v in Mnemonic32.i_adcx_eo (r 0) (o 1))
     (fun v => let (o, a, r, n, e, s) := v in Mnemonic.i_adcx_eo (r 0) (widen_op (o 1)));
   mkB "add_oi" (fun v => let (o, a, r, n, e, s) := v in Mnemonic32.i_add_oi (o 0) (n 1))
     (fun v => let (o, a, r, n, e, s) := v in Mnemonic.i_add_oi (widen_op (o 0)) (n 1));
   mkB "add_oo" (fun v => let (o, a, r, n, e, s) := v in Mnemonic32.i_add_oo (o 0) (o 1))
     (fun v => let (o, a, r, n, e, s) := v in Mnemonic.i_add_oo (widen_op (o 0)) (widen_op (o 1)));
   mkB "add_roi" (fun v => let (o, a, r, n, e, s) := v in Mnemonic32.i_add_roi (r 0) (o 1) (n 2))
     (fun v => let (o, a, r, n, e, s) := v in Mnemonic.i_add_roi (r 0) (widen_op (o 1)) (n 2));
   mkB "add_roo" (fun v => let (o, a, r, n, e, s) := v in Mnemonic32.i_add_roo (r 0) (o 1) (o 2))
     (fun v => let (o, a, r, n, e, s) := v in Mnemonic.i_add_roo (r 0) (widen_op (o 1)) (widen_op (o 2)));
   mkB "addpd" (fun v => let (o, a, r, n, e, s) := v in Mnemonic32.i_addpd (r 0) (o 1))
     (fun v => let (o, a, r, n, e, s) := v in Mnemonic.i_addpd (r 0) (widen_op (o 1)));
   mkB "addps" (fun v => let (o, a, r, n, e, s) := v in Mnemonic32.i_addps (r 0) (o 1))
     (fun v => let (o, a, r, n, e, s) := v in Mnemonic.i_addps (r 0) (widen_op (o 1)));
   mkB "addsd" (fun v => let (o, a, r, n, e, s) := v in Mnemonic32.i_addsd (r 0) (o 1))
     (fun v => let (o, a, r, n, e, s) := v in Mnemonic.i_addsd (r 0) (widen_op (o 1)));
   mkB "addss" (fun v => let (o, a, r, n, e, s) := v in Mnemonic32.i_addss (r 0) (o 1))
     (fun v => let (o, a, r, n, e, s) := v in Mnemonic.i_addss (r 0) (widen_op (o 1)));
   mkB "addsubpd" (fun v => let (o, a, r, n, e, s) := v in Mnemonic32.i_addsubpd (r 0) (o 1))
     (fun v => let (o, a, r, n, e, s) := v in Mnemonic.i_addsubpd (r 0) (widen_op (o 1)));
   mkB "addsubps" (fun v => let (o, a, r, n, e, s) := v in Mnemonic32.i_addsubps (r 0) (o 1))
     (fun v => let (o, a, r, n, e, s) := v in Mnemonic.i_addsubps (r 0) (widen_op (o 1)));
   mkB "adox_eeo" (fun v => let (o, a, r, n, e, s) := v in Mnemonic32.i_adox_eeo (r 0) (r 1) (o 2))
     (fun v => let (o, a, r, n, e, s) := v in Mnemonic.i_adox_eeo (r 0) (r 1) (widen_op (o 2)));
   mkB "adox_eo" (fun v => let (o, a, r, n, e, s) := v in Mnemonic32.i_adox_eo (r 0) (o 1))
     (fun v => let (o, a, r, n, e, s) := v in Mnemonic.i_adox_eo (r 0) (widen_op (o 1)));
   mkB "aesdec" (fun v => let (o, a, r, n, e, s) := v in Mnemonic32.i_aesdec (r 0) (o 1))
     (fun v => let (o, a, r, n, e, s) := v in Mnemonic.i_aesdec (r 0) (widen_op (o 1)));
   mkB "aesdeclast" (fun v => let (o, a, r, n, e, s) := v in Mnemonic32.i_aesdeclast (r 0) (o 1))
     (fun v => let (o, a, r, n, e, s) := v in Mnemonic.i_aesdeclast (r 0) (widen_op (o 1)));
   mkB "aesenc" (fun v => let (o, a, r, n, e, s) := v in Mnemonic32.i_aesenc (r 0) (o 1))
     (fun v => let (o, a, r, n, e, s) := v in Mnemonic.i_aesenc (r 0) (widen_op (o 1)));
   mkB "aesenclast" (fun v => let (o, a, r, n, e, s) := v in Mnemonic32.i_aesenclast (r 0) (o 1))
     (fun v => let (o, a, r, n, e, s) := v in Mnemonic.i_aesenclast (r 0) (widen_op (o 1)));
   mkB "aesimc" (fun v => let (o, a, r, n, e, s) := v in Mnemonic32.i_aesimc (r 0) (o 1))
     (fun v => let (o, a, r, n, e, s) := v in Mnemonic.i_aesimc (r 0) (widen_op (o 1)))].
Lemma sims0_ok : Forall same sims0.
Proof. unfold sims0.
srow_. { unfold Mnemonic32.i_aadd, Mnemonic.i_aadd. row_sim. }
srow_. { unfold Mnemonic32.i_aand, Mnemonic.i_aand. row_sim. }
row. { unfold Mnemonic32.i_adc_oi, Mnemonic.i_adc_oi. row_sim. }
srow_. { unfold Mnemonic32.i_adc_oo, Mnemonic.i_adc_oo. row_sim. }
row. { unfold Mnemonic32.i_adc_roi, Mnemonic.i_adc_roi. row_sim. }
row. { unfold Mnemonic32.i_adc_roo, Mnemonic.i_adc_roo. row_sim. }
row. { unfold Mnemonic32.i_adcx_eeo, Mnemonic.i_adcx_eeo. row_sim. }
srow_. { unfold Mnemonic32.i_adcx_eo, Mnemonic.i_adcx_eo. row_sim. }
row. { unfold Mnemonic32.i_add_oi, Mnemonic.i_add_oi. row_sim. }
srow_. { unfold Mnemonic32.i_add_oo, Mnemonic.i_add_oo. row_sim. }
row. { unfold Mnemonic32.i_add_roi, Mnemonic.i_add_roi. row_sim. }
row. { unfold Mnemonic32.i_add_roo, Mnemonic.i_add_roo. row_sim. }
srow_. { unfold Mnemonic32.i_addpd, Mnemonic.i_addpd. row_sim. }
srow_. { unfold Mnemonic32.i_addps, Mnemonic.i_addps. row_sim. }
srow_. { unfold Mnemonic32.i_addsd, Mnemonic.i_addsd. row_sim. }
srow_. { unfold Mnemonic32.i_addss, Mnemonic.i_addss. row_sim. }
srow_. { unfold Mnemonic32.i_addsubpd, Mnemonic.i_addsubpd. row_sim. }
srow_. { unfold Mnemonic32.i_addsubps, Mnemonic.i_addsubps. row_sim. }
row. { unfold Mnemonic32.i_adox_eeo, Mnemonic.i_adox_eeo. row_sim. }
srow_. { unfold Mnemonic32.i_adox_eo, Mnemonic.i_adox_eo. row_sim. }
srow_. { unfold Mnemonic32.i_aesdec, Mnemonic.i_aesdec. row_sim. }
srow_. { unfold Mnemonic32.i_aesdeclast, Mnemonic.i_aesdeclast. row_sim. }
srow_. { unfold Mnemonic32.i_aesenc, Mnemonic.i_aesenc. row_sim. }
srow_. { unfold Mnemonic32.i_aesenclast, Mnemonic.i_aesenclast. row_sim. }
srow_. { unfold Mnemonic32.i_aesimc, Mnemonic.i_aesimc. row_sim. }
apply Forall_nil. Qed.
Definition sims1 : list b_entry :=
  [mkB "aeskeygenassist" (fun v => let (o, a, r, n, e, s) := v in Mnemonic32.i_aeskeygenassist (r 0) (o 1) (n 2))
     (fun v => let (o, a, r, n, e, s) := v in Mnemonic.i_aeskeygenassist (r 0) (widen_op (o 1)) (n 2));
   mkB "and__oi" (fun v => let (o, a, r, n, e, s) := v in Mnemonic32.i_and__oi (o 0) (n 1))
     (fun v => let (o, a, r, n, e, s) := v in Mnemonic.i_and__oi (widen_op (o 0)) (n 1));
   mkB "and__oo" (fun v => let (o, a, r, n, e, s) := v in Mnemonic32.i_and__oo (o 0) (o 1))
     (fun v => let (o, a, r, n, e, s) := v in Mnemonic.i_and__oo (widen_op (o 0)) (widen_op (o 1)));
   mkB "and__roi" (fun v => let (o, a, r, n, e, s) := v in Mnemonic32.i_and__roi (r 0) (o 1) (n 2))
     (fun v => let (o, a, r, n, e, s) := v in Mnemonic.i_and__roi (r 0) (widen_op (o 1)) (n 2));
   mkB "and__roo" (fun v => let (o, a, r, n, e, s) := v in Mnemonic32.i_and__roo (r 0) (o 1) (o 2))
     (fun v => let (o, a, r, n, e, s) := v in Mnemonic.i_and__roo (r 0) (widen_op (o 1)) (widen_op (o 2)));
   mkB "andn" (fun v => let (o, a, r, n, e, s) := v in Mnemonic32.i_andn (r 0) (r 1) (o 2))
     (fun v => let (o, a, r, n, e, s) := v in Mnemonic.i_andn (r 0) (r 1) (widen_op (o 2)));
   mkB "andnpd" (fun v => let (o, a, r, n, e, s) := v in Mnemonic32.i_andnpd (r 0) (o 1))
     (fun v => let (o, a, r, n, e, s) := v in Mnemonic.i_andnpd (r 0) (widen_op (o 1)));
   mkB "andnps" (fun v => let (o, a, r, n, e, s) := v in Mnemonic32.i_andnps (r 0) (o 1))
     (fun v => let (o, a, r, n, e, s) := v in Mnemonic.i_andnps (r 0) (widen_op (o 1)));
   mkB "andpd" (fun v => let (o, a, r, n, e, s) := v in Mnemonic32.i_andpd (r 0) (o 1))
     (fun v => let (o, a, r, n, e, s) := v in Mnemonic.i_andpd (r 0) (widen_op (o 1)));
   mkB "andps" (fun v => let (o, a, r, n, e, s) := v in Mnemonic32.i_andps (r 0) (o 1))
     (fun v => let (o, a, r, n, e, s) := v in Mnemonic.i_andps (r 0) (widen_op (o 1)));
   mkB "aor" (fun v => let (o, a, r, n, e, s) := v in Mnemonic32.i_aor (a 0) (r 1))
     (fun v => let (o, a, r, n, e, s) := v in Mnemonic.i_aor (widen_addr (a 0)) (r 1));
   mkB "axor" (fun v => let (o, a, r, n, e, s) := v in Mnemonic32.i_axor (a 0) (r 1))
     (fun v => let (o, a, r, n, e, s) := v in Mnemonic.i_axor (widen_addr (a 0)) (r 1));
   mkB "bextr" (fun v => let (o, a, r, n, e, s) := v in Mnemonic32.i_bextr (r 0) (o 1) (r 2))
     (fun v => let (o, a, r, n, e, s) := v in Mnemonic.i_bextr (r 0) (widen_op (o 1)) (r 2));
   mkB "blendpd" (fun v => let (o, a, r, n, e, s) := v in Mnemonic32.i_blendpd (r 0) (o 1) (n 2))
     (fun v => let (o, a, r, n, e, s) := v in Mnemonic.i_blendpd (r 0) (widen_op (o 1)) (n 2));
   mkB "blendps" (fun v => let (o, a, r, n, e, s) := v in Mnemonic32.i_blendps (r 0) (o 1) (n 2))
     (fun v => let (o, a, r, n, e, s) := v in Mnemonic.i_blendps (r 0) (widen_op (o 1)) (n 2));
   mkB "blendvpd" (fun v => let (o, a, r, n, e, s) := v in Mnemonic32.i_blendvpd (r 0) (o 1))
     (fun v => let (o, a, r, n, e, s) := v in Mnemonic.i_blendvpd (r 0) (widen_op (o 1)));
   mkB "blendvps" (fun v => let (o, a, r, n, e, s) := v in Mnemonic32.i_blendvps (r 0) (o 1))
     (fun v => let (o, a, r, n, e, s) := v in Mnemonic.i_blendvps (r 0) (widen_op (o 1)));
   mkB "blsi" (fun v => let (o, a, r, n, e, s) := v in Mnemonic32.i_blsi (r 0) (o 1))
     (fun v => let (o, a, r, n, e, s) := v in Mnemonic.i_blsi (r 0) (widen_op (o 1)));
   mkB "blsmsk" (fun v => let (o, a, r, n, e, s) := v in Mnemonic32.i_blsmsk (r 0) (o 1))
     (fun v => let (o, a, r, n, e, s) := v in Mnemonic.i_blsmsk (r 0) (widen_op (o 1)));
   mkB "blsr" (fun v => let (o, a, r, n, e, s) := v in Mnemonic32.i_blsr (r 0) (o 1))
     (fun v => let (o, a, r, n, e, s) := v in Mnemonic.i_blsr (r 0) (widen_op (o 1)));
   mkB "bndcl" (fun v => let (o, a, r, n, e, s) := v in Mnemonic32.i_bndcl (r 0) (o 1))
     (fun v => let (o, a, r, n, e, s) := v in Mnemonic.i_bndcl (r 0) (widen_op (o 1)));
   mkB "bndcn" (fun v => let (o, a, r, n, e, s) := v in Mnemonic32.i_bndcn (r 0) (o 1))
     (fun v => let (o, a, r, n, e, s) := v in Mnemonic.i_bndcn (r 0) (widen_op (o 1)));
   mkB "bndcu" (fun v => let (o, a, r, n, e, s) := v in Mnemonic32.i_bndcu (r 0) (o 1))
     (fun v => let (o, a, r, n, e, s) := v in Mnemonic.i_bndcu (r 0) (widen_op (o 1)));
   mkB "bndmk" (fun v => let (o, a, r, n, e, s) := v in Mnemonic32.i_bndmk (r 0) (a 1))
     (fun v => let (o, a, r, n, e, s) := v in Mnemonic.i_bndmk (r 0) (widen_addr (a 1)));
   mkB "bndmov_an" (fun v => let (o, a, r, n, e, s) := v in Mnemonic32.i_bndmov_an (a 0) (r 1))
     (fun v => let (o, a, r, n, e, s) := v in Mnemonic.i_bndmov_an (widen_addr (a 0)) (r 1))].
Lemma sims1_ok : Forall same sims1.
Proof. unfold sims1.
srow_. { unfold Mnemonic32.i_aeskeygenassist, Mnemonic.i_aeskeygenassist. row_sim. }
row. { unfold Mnemonic32.i_and__oi, Mnemonic.i_and__oi. row_sim. }
srow_. { unfold Mnemonic32.i_and__oo, Mnemonic.i_and__oo. row_sim. }
row. { unfold Mnemonic32.i_and__roi, Mnemonic.i_and__roi. row_sim. }
row. { unfold Mnemonic32.i_and__roo, Mnemonic.i_and__roo. row_sim. }
row. { unfold Mnemonic32.i_andn, Mnemonic.i_andn. row_sim. }
srow_. { unfold Mnemonic32.i_andnpd, Mnemonic.i_andnpd. row_sim. }
srow_. { unfold Mnemonic32.i_andnps, Mnemonic.i_andnps. row_sim. }
srow_. { unfold Mnemonic32.i_andpd, Mnemonic.i_andpd. row_sim. }
srow_. { unfold Mnemonic32.i_andps, Mnemonic.i_andps. row_sim. }
srow_. { unfold Mnemonic32.i_aor, Mnemonic.i_aor. row_sim. }
srow_. { unfold Mnemonic32.i_axor, Mnemonic.i_axor. row_sim. }
row. { unfold Mnemonic32.i_bextr, Mnemonic.i_bextr. row_sim. }
srow_. { unfold Mnemonic32.i_blendpd, Mnemonic.i_blendpd. row_sim. }
srow_. { unfold Mnemonic32.i_blendps, Mnemonic.i_blendps. row_sim. }
srow_. { unfold Mnemonic32.i_blendvpd, Mnemonic.i_blendvpd. row_sim. }
srow_. { unfold Mnemonic32.i_blendvps, Mnemonic.i_blendvps. row_sim. }
row. { unfold Mnemonic32.i_blsi, Mnemonic.i_blsi. row_sim. }
row. { unfold Mnemonic32.i_blsmsk, Mnemonic.i_blsmsk. row_sim. }
row. { unfold Mnemonic32.i_blsr, Mnemonic.i_blsr. row_sim. }
row. { unfold Mnemonic32.i_bndcl, Mnemonic.i_bndcl. row_sim. }
row. { unfold Mnemonic32.i_bndcn, Mnemonic.i_bndcn. row_sim. }
row. { unfold Mnemonic32.i_bndcu, Mnemonic.i_bndcu. row_sim. }
srow_. { unfold Mnemonic32.i_bndmk, Mnemonic.i_bndmk. row_sim. }
srow_. { unfold Mnemonic32.i_bndmov_an, Mnemonic.i_bndmov_an. row_sim. }
apply Forall_nil. Qed.
Definition sims2 : list b_entry :=
  [mkB "bndmov_no" (fun v => let (o, a, r, n, e, s) := v in Mnemonic32.i_bndmov_no (r 0) (o 1))
     (fun v => let (o, a, r, n, e, s) := v in Mnemonic.i_bndmov_no (r 0) (widen_op (o 1)));
   mkB "bsf" (fun v => let (o, a, r, n, e, s) := v in Mnemonic32.i_bsf (r 0) (o 1))
     (fun v => let (o, a, r, n, e, s) := v in Mnemonic.i_bsf (r 0) (widen_op (o 1)));
   mkB "bsr" (fun v => let (o, a, r, n, e, s) := v in Mnemonic32.i_bsr (r 0) (o 1))
     (fun v => let (o, a, r, n, e, s) := v in Mnemonic.i_bsr (r 0) (widen_op (o 1)));
   mkB "bt_or" (fun v => let (o, a, r, n, e, s) := v in Mnemonic32.i_bt_or (o 0) (r 1))
     (fun v => let (o, a, r, n, e, s) := v in Mnemonic.i_bt_or (widen_op (o 0)) (r 1));
   mkB "bt_oi" (fun v => let (o, a, r, n, e, s) := v in Mnemonic32.i_bt_oi (o 0) (n 1))
     (fun v => let (o, a, r, n, e, s) := v in Mnemonic.i_bt_oi (widen_op (o 0)) (n 1));
   mkB "btc_or" (fun v => let (o, a, r, n, e, s) := v in Mnemonic32.i_btc_or (o 0) (r 1))
     (fun v => let (o, a, r, n, e, s) := v in Mnemonic.i_btc_or (widen_op (o 0)) (r 1));
   mkB "btc_oi" (fun v => let (o, a, r, n, e, s) := v in Mnemonic32.i_btc_oi (o 0) (n 1))
     (fun v => let (o, a, r, n, e, s) := v in Mnemonic.i_btc_oi (widen_op (o 0)) (n 1));
   mkB "btr_or" (fun v => let (o, a, r, n, e, s) := v in Mnemonic32.i_btr_or (o 0) (r 1))
     (fun v => let (o, a, r, n, e, s) := v in Mnemonic.i_btr_or (widen_op (o 0)) (r 1));
   mkB "btr_oi" (fun v => let (o, a, r, n, e, s) := v in Mnemonic32.i_btr_oi (o 0) (n 1))
     (fun v => let (o, a, r, n, e, s) := v in Mnemonic.i_btr_oi (widen_op (o 0)) (n 1));
   mkB "bts_or" (fun v => let (o, a, r, n, e, s) := v in Mnemonic32.i_bts_or (o 0) (r 1))
     (fun v => let (o, a, r, n, e, s) := v in Mnemonic.i_bts_or (widen_op (o 0)) (r 1));
   mkB "bts_oi" (fun v => let (o, a, r, n, e, s) := v in Mnemonic32.i_bts_oi (o 0) (n 1))
     (fun v => let (o, a, r, n, e, s) := v in Mnemonic.i_bts_oi (widen_op (o 0)) (n 1));
   mkB "bzhi" (fun v => let (o, a, r, n, e, s) := v in Mnemonic32.i_bzhi (r 0) (o 1) (r 2))
     (fun v => let (o, a, r, n, e, s) := v in Mnemonic.i_bzhi (r 0) (widen_op (o 1)) (r 2));
   mkB "ccmpa_oii" (fun v => let (o, a, r, n, e, s) := v in Mnemonic32.i_ccmpa_oii (o 0) (n 1) (n 2))
     (fun v => let (o, a, r, n, e, s) := v in Mnemonic.i_ccmpa_oii (widen_op (o 0)) (n 1) (n 2));
   mkB "ccmpa_ooi" (fun v => let (o, a, r, n, e, s) := v in Mnemonic32.i_ccmpa_ooi (o 0) (o 1) (n 2))
     (fun v => let (o, a, r, n, e, s) := v in Mnemonic.i_ccmpa_ooi (widen_op (o 0)) (widen_op (o 1)) (n 2));
   mkB "ccmpae_oii" (fun v => let (o, a, r, n, e, s) := v in Mnemonic32.i_ccmpae_oii (o 0) (n 1) (n 2))
     (fun v => let (o, a, r, n, e, s) := v in Mnemonic.i_ccmpae_oii (widen_op (o 0)) (n 1) (n 2));
   mkB "ccmpae_ooi" (fun v => let (o, a, r, n, e, s) := v in Mnemonic32.i_ccmpae_ooi (o 0) (o 1) (n 2))
     (fun v => let (o, a, r, n, e, s) := v in Mnemonic.i_ccmpae_ooi (widen_op (o 0)) (widen_op (o 1)) (n 2));
   mkB "ccmpb_oii" (fun v => let (o, a, r, n, e, s) := v in Mnemonic32.i_ccmpb_oii (o 0) (n 1) (n 2))
     (fun v => let (o, a, r, n, e, s) := v in Mnemonic.i_ccmpb_oii (widen_op (o 0)) (n 1) (n 2));
   mkB "ccmpb_ooi" (fun v => let (o, a, r, n, e, s) := v in Mnemonic32.i_ccmpb_ooi (o 0) (o 1) (n 2))
     (fun v => let (o, a, r, n, e, s) := v in Mnemonic.i_ccmpb_ooi (widen_op (o 0)) (widen_op (o 1)) (n 2));
   mkB "ccmpbe_oii" (fun v => let (o, a, r, n, e, s) := v in Mnemonic32.i_ccmpbe_oii (o 0) (n 1) (n 2))
     (fun v => let (o, a, r, n, e, s) := v in Mnemonic.i_ccmpbe_oii (widen_op (o 0)) (n 1) (n 2));
   mkB "ccmpbe_ooi" (fun v => let (o, a, r, n, e, s) := v in Mnemonic32.i_ccmpbe_ooi (o 0) (o 1) (n 2))
     (fun v => let (o, a, r, n, e, s) := v in Mnemonic.i_ccmpbe_ooi (widen_op (o 0)) (widen_op (o 1)) (n 2));
   mkB "ccmpc_oii" (fun v => let (o, a, r, n, e, s) := v in Mnemonic32.i_ccmpc_oii (o 0) (n 1) (n 2))
     (fun v => let (o, a, r, n, e, s) := v in Mnemonic.i_ccmpc_oii (widen_op (o 0)) (n 1) (n 2));
   mkB "ccmpc_ooi" (fun v => let (o, a, r, n, e, s) := v in Mnemonic32.i_ccmpc_ooi (o 0) (o 1) (n 2))
     (fun v => let (o, a, r, n, e, s) := v in Mnemonic.i_ccmpc_ooi (widen_op (o 0)) (widen_op (o 1)) (n 2));
   mkB "ccmpe_oii" (fun v => let (o, a, r, n, e, s) := v in Mnemonic32.i_ccmpe_oii (o 0) (n 1) (n 2))
     (fun v => let (o, a, r, n, e, s) := v in Mnemonic.i_ccmpe_oii (widen_op (o 0)) (n 1) (n 2));
   mkB "ccmpe_ooi" (fun v => let (o, a, r, n, e, s) := v in Mnemonic32.i_ccmpe_ooi (o 0) (o 1) (n 2))
     (fun v => let (o, a, r, n, e, s) := v in Mnemonic.i_ccmpe_ooi (widen_op (o 0)) (widen_op (o 1)) (n 2));
   mkB "ccmpf_oii" (fun v => let (o, a, r, n, e, s) := v in Mnemonic32.i_ccmpf_oii (o 0) (n 1) (n 2))
     (fun v => let (o, a, r, n, e, s) := v in Mnemonic.i_ccmpf_oii (widen_op (o 0)) (n 1) (n 2))].
Lemma sims2_ok : Forall same sims2.
Proof. unfold sims2.
srow_. { unfold Mnemonic32.i_bndmov_no, Mnemonic.i_bndmov_no. row_sim. }
srow_. { unfold Mnemonic32.i_bsf, Mnemonic.i_bsf. row_sim. }
srow_. { unfold Mnemonic32.i_bsr, Mnemonic.i_bsr. row_sim. }
srow_. { unfold Mnemonic32.i_bt_or, Mnemonic.i_bt_or. row_sim. }
row. { unfold Mnemonic32.i_bt_oi, Mnemonic.i_bt_oi. row_sim. }
srow_. { unfold Mnemonic32.i_btc_or, Mnemonic.i_btc_or. row_sim. }
row. { unfold Mnemonic32.i_btc_oi, Mnemonic.i_btc_oi. row_sim. }
srow_. { unfold Mnemonic32.i_btr_or, Mnemonic.i_btr_or. row_sim. }
row. { unfold Mnemonic32.i_btr_oi, Mnemonic.i_btr_oi. row_sim. }
srow_. { unfold Mnemonic32.i_bts_or, Mnemonic.i_bts_or. row_sim. }
row. { unfold Mnemonic32.i_bts_oi, Mnemonic.i_bts_oi. row_sim. }
row. { unfold Mnemonic32.i_bzhi, Mnemonic.i_bzhi. row_sim. }
row. { unfold Mnemonic32.i_ccmpa_oii, Mnemonic.i_ccmpa_oii. row_sim. }
row. { unfold Mnemonic32.i_ccmpa_ooi, Mnemonic.i_ccmpa_ooi. row_sim. }
row. { unfold Mnemonic32.i_ccmpae_oii, Mnemonic.i_ccmpae_oii. row_sim. }
row. { unfold Mnemonic32.i_ccmpae_ooi, Mnemonic.i_ccmpae_ooi. row_sim. }
row. { unfold Mnemonic32.i_ccmpb_oii, Mnemonic.i_ccmpb_oii. row_sim. }
row. { unfold Mnemonic32.i_ccmpb_ooi, Mnemonic.i_ccmpb_ooi. row_sim. }
row. { unfold Mnemonic32.i_ccmpbe_oii, Mnemonic.i_ccmpbe_oii. row_sim. }
row. { unfold Mnemonic32.i_ccmpbe_ooi, Mnemonic.i_ccmpbe_ooi. row_sim. }
row. { unfold Mnemonic32.i_ccmpc_oii, Mnemonic.i_ccmpc_oii. row_sim. }
row. { unfold Mnemonic32.i_ccmpc_ooi, Mnemonic.i_ccmpc_ooi. row_sim. }
row. { unfold Mnemonic32.i_ccmpe_oii, Mnemonic.i_ccmpe_oii. row_sim. }
row. { unfold Mnemonic32.i_ccmpe_ooi, Mnemonic.i_ccmpe_ooi. row_sim. }
row. { unfold Mnemonic32.i_ccmpf_oii, Mnemonic.i_ccmpf_oii. row_sim. }
apply Forall_nil. Qed.
Definition sims3 : list b_entry :=
  [mkB "ccmpf_ooi" (fun v => let (o, a, r, n, e, s) := v in Mnemonic32.i_ccmpf_ooi (o 0) (o 1) (n 2))
     (fun v => let (o, a, r, n, e, s) := v in Mnemonic.i_ccmpf_ooi (widen_op (o 0)) (widen_op (o 1)) (n 2));
   mkB "ccmpg_oii" (fun v => let (o, a, r, n, e, s) := v in Mnemonic32.i_ccmpg_oii (o 0) (n 1) (n 2))
     (fun v => let (o, a, r, n, e, s) := v in Mnemonic.i_ccmpg_oii (widen_op (o 0)) (n 1) (n 2));
   mkB "ccmpg_ooi" (fun v => let (o, a, r, n, e, s) := v in Mnemonic32.i_ccmpg_ooi (o 0) (o 1) (n 2))
     (fun v => let (o, a, r, n, e, s) := v in Mnemonic.i_ccmpg_ooi (widen_op (o 0)) (widen_op (o 1)) (n 2));
   mkB "ccmpge_oii" (fun v => let (o, a, r, n, e, s) := v in Mnemonic32.i_ccmpge_oii (o 0) (n 1) (n 2))
     (fun v => let (o, a, r, n, e, s) := v in Mnemonic.i_ccmpge_oii (widen_op (o 0)) (n 1) (n 2));
   mkB "ccmpge_ooi" (fun v => let (o, a, r, n, e, s) := v in Mnemonic32.i_ccmpge_ooi (o 0) (o 1) (n 2))
     (fun v => let (o, a, r, n, e, s) := v in Mnemonic.i_ccmpge_ooi (widen_op (o 0)) (widen_op (o 1)) (n 2));
   mkB "ccmpl_oii" (fun v => let (o, a, r, n, e, s) := v in Mnemonic32.i_ccmpl_oii (o 0) (n 1) (n 2))
     (fun v => let (o, a, r, n, e, s) := v in Mnemonic.i_ccmpl_oii (widen_op (o 0)) (n 1) (n 2));
   mkB "ccmpl_ooi" (fun v => let (o, a, r, n, e, s) := v in Mnemonic32.i_ccmpl_ooi (o 0) (o 1) (n 2))
     (fun v => let (o, a, r, n, e, s) := v in Mnemonic.i_ccmpl_ooi (widen_op (o 0)) (widen_op (o 1)) (n 2));
   mkB "ccmple_oii" (fun v => let (o, a, r, n, e, s) := v in Mnemonic32.i_ccmple_oii (o 0) (n 1) (n 2))
     (fun v => let (o, a, r, n, e, s) := v in Mnemonic.i_ccmple_oii (widen_op (o 0)) (n 1) (n 2));
   mkB "ccmple_ooi" (fun v => let (o, a, r, n, e, s) := v in Mnemonic32.i_ccmple_ooi (o 0) (o 1) (n 2))
     (fun v => let (o, a, r, n, e, s) := v in Mnemonic.i_ccmple_ooi (widen_op (o 0)) (widen_op (o 1)) (n 2));
   mkB "ccmpna_oii" (fun v => let (o, a, r, n, e, s) := v in Mnemonic32.i_ccmpna_oii (o 0) (n 1) (n 2))
     (fun v => let (o, a, r, n, e, s) := v in Mnemonic.i_ccmpna_oii (widen_op (o 0)) (n 1) (n 2));
   mkB "ccmpna_ooi" (fun v => let (o, a, r, n, e, s) := v in Mnemonic32.i_ccmpna_ooi (o 0) (o 1) (n 2))
     (fun v => let (o, a, r, n, e, s) := v in Mnemonic.i_ccmpna_ooi (widen_op (o 0)) (widen_op (o 1)) (n 2));
   mkB "ccmpnae_oii" (fun v => let (o, a, r, n, e, s) := v in Mnemonic32.i_ccmpnae_oii (o 0) (n 1) (n 2))
     (fun v => let (o, a, r, n, e, s) := v in Mnemonic.i_ccmpnae_oii (widen_op (o 0)) (n 1) (n 2));
   mkB "ccmpnae_ooi" (fun v => let (o, a, r, n, e, s) := v in Mnemonic32.i_ccmpnae_ooi (o 0) (o 1) (n 2))
     (fun v => let (o, a, r, n, e, s) := v in Mnemonic.i_ccmpnae_ooi (widen_op (o 0)) (widen_op (o 1)) (n 2));
   mkB "ccmpnb_oii" (fun v => let (o, a, r, n, e, s) := v in Mnemonic32.i_ccmpnb_oii (o 0) (n 1) (n 2))
     (fun v => let (o, a, r, n, e, s) := v in Mnemonic.i_ccmpnb_oii (widen_op (o 0)) (n 1) (n 2));
   mkB "ccmpnb_ooi" (fun v => let (o, a, r, n, e, s) := v in Mnemonic32.i_ccmpnb_ooi (o 0) (o 1) (n 2))
     (fun v => let (o, a, r, n, e, s) := v in Mnemonic.i_ccmpnb_ooi (widen_op (o 0)) (widen_op (o 1)) (n 2));
   mkB "ccmpnbe_oii" (fun v => let (o, a, r, n, e, s) := v in Mnemonic32.i_ccmpnbe_oii (o 0) (n 1) (n 2))
     (fun v => let (o, a, r, n, e, s) := v in Mnemonic.i_ccmpnbe_oii (widen_op (o 0)) (n 1) (n 2));
   mkB "ccmpnbe_ooi" (fun v => let (o, a, r, n, e, s) := v in Mnemonic32.i_ccmpnbe_ooi (o 0) (o 1) (n 2))
     (fun v => let (o, a, r, n, e, s) := v in Mnemonic.i_ccmpnbe_ooi (widen_op (o 0)) (widen_op (o 1)) (n 2));
   mkB "ccmpnc_oii" (fun v => let (o, a, r, n, e, s) := v in Mnemonic32.i_ccmpnc_oii (o 0) (n 1) (n 2))
     (fun v => let (o, a, r, n, e, s) := v in Mnemonic.i_ccmpnc_oii (widen_op (o 0)) (n 1) (n 2));
   mkB "ccmpnc_ooi" (fun v => let (o, a, r, n, e, s) := v in Mnemonic32.i_ccmpnc_ooi (o 0) (o 1) (n 2))
     (fun v => let (o, a, r, n, e, s) := v in Mnemonic.i_ccmpnc_ooi (widen_op (o 0)) (widen_op (o 1)) (n 2));
   mkB "ccmpne_oii" (fun v => let (o, a, r, n, e, s) := v in Mnemonic32.i_ccmpne_oii (o 0) (n 1) (n 2))
     (fun v => let (o, a, r, n, e, s) := v in Mnemonic.i_ccmpne_oii (widen_op (o 0)) (n 1) (n 2));
   mkB "ccmpne_ooi" (fun v => let (o, a, r, n, e, s) := v in Mnemonic32.i_ccmpne_ooi (o 0) (o 1) (n 2))
     (fun v => let (o, a, r, n, e, s) := v in Mnemonic.i_ccmpne_ooi (widen_op (o 0)) (widen_op (o 1)) (n 2));
   mkB "ccmpng_oii" (fun v => let (o, a, r, n, e, s) := v in Mnemonic32.i_ccmpng_oii (o 0) (n 1) (n 2))
     (fun v => let (o, a, r, n, e, s) := v in Mnemonic.i_ccmpng_oii (widen_op (o 0)) (n 1) (n 2));
   mkB "ccmpng_ooi" (fun v => let (o, a, r, n, e, s) := v in Mnemonic32.i_ccmpng_ooi (o 0) (o 1) (n 2))
     (fun v => let (o, a, r, n, e, s) := v in Mnemonic.i_ccmpng_ooi (widen_op (o 0)) (widen_op (o 1)) (n 2));
   mkB "ccmpnge_oii" (fun v => let (o, a, r, n, e, s) := v in Mnemonic32.i_ccmpnge_oii (o 0) (n 1) (n 2))
     (fun v => let (o, a, r, n, e, s) := v in Mnemonic.i_ccmpnge_oii (widen_op (o 0)) (n 1) (n 2));
   mkB "ccmpnge_ooi" (fun v => let (o, a, r, n, e, s) := v in Mnemonic32.i_ccmpnge_ooi (o 0) (o 1) (n 2))
     (fun v => let (o, a, r, n, e, s) := v in Mnemonic.i_ccmpnge_ooi (widen_op (o 0)) (widen_op (o 1)) (n 2))].
Lemma sims3_ok : Forall same sims3.
Proof. unfold sims3.
row. { unfold Mnemonic32.i_ccmpf_ooi, Mnemonic.i_ccmpf_ooi. row_sim. }
row. { unfold Mnemonic32.i_ccmpg_oii, Mnemonic.i_ccmpg_oii. row_sim. }
row. { unfold Mnemonic32.i_ccmpg_ooi, Mnemonic.i_ccmpg_ooi. row_sim. }
row. { unfold Mnemonic32.i_ccmpge_oii, Mnemonic.i_ccmpge_oii. row_sim. }
row. { unfold Mnemonic32.i_ccmpge_ooi, Mnemonic.i_ccmpge_ooi. row_sim. }
row. { unfold Mnemonic32.i_ccmpl_oii, Mnemonic.i_ccmpl_oii. row_sim. }
row. { unfold Mnemonic32.i_ccmpl_ooi, Mnemonic.i_ccmpl_ooi. row_sim. }
row. { unfold Mnemonic32.i_ccmple_oii, Mnemonic.i_ccmple_oii. row_sim. }
row. { unfold Mnemonic32.i_ccmple_ooi, Mnemonic.i_ccmple_ooi. row_sim. }
row. { unfold Mnemonic32.i_ccmpna_oii, Mnemonic.i_ccmpna_oii. row_sim. }
row. { unfold Mnemonic32.i_ccmpna_ooi, Mnemonic.i_ccmpna_ooi. row_sim. }
row. { unfold Mnemonic32.i_ccmpnae_oii, Mnemonic.i_ccmpnae_oii. row_sim. }
row. { unfold Mnemonic32.i_ccmpnae_ooi, Mnemonic.i_ccmpnae_ooi. row_sim. }
row. { unfold Mnemonic32.i_ccmpnb_oii, Mnemonic.i_ccmpnb_oii. row_sim. }
row. { unfold Mnemonic32.i_ccmpnb_ooi, Mnemonic.i_ccmpnb_ooi. row_sim. }
row. { unfold Mnemonic32.i_ccmpnbe_oii, Mnemonic.i_ccmpnbe_oii. row_sim. }
row. { unfold Mnemonic32.i_ccmpnbe_ooi, Mnemonic.i_ccmpnbe_ooi. row_sim. }
row. { unfold Mnemonic32.i_ccmpnc_oii, Mnemonic.i_ccmpnc_oii. row_sim. }
row. { unfold Mnemonic32.i_ccmpnc_ooi, Mnemonic.i_ccmpnc_ooi. row_sim. }
row. { unfold Mnemonic32.i_ccmpne_oii, Mnemonic.i_ccmpne_oii. row_sim. }
row. { unfold Mnemonic32.i_ccmpne_ooi, Mnemonic.i_ccmpne_ooi. row_sim. }
row. { unfold Mnemonic32.i_ccmpng_oii, Mnemonic.i_ccmpng_oii. row_sim. }
row. { unfold Mnemonic32.i_ccmpng_ooi, Mnemonic.i_ccmpng_ooi. row_sim. }
row. { unfold Mnemonic32.i_ccmpnge_oii, Mnemonic.i_ccmpnge_oii. row_sim. }
row. { unfold Mnemonic32.i_ccmpnge_ooi, Mnemonic.i_ccmpnge_ooi. row_sim. }
apply Forall_nil. Qed.
Definition sims4 : list b_entry :=
  [mkB "ccmpnl_oii" (fun v => let (o, a, r, n, e, s) := v in Mnemonic32.i_ccmpnl_oii (o 0) (n 1) (n 2))
     (fun v => let (o, a, r, n, e, s) := v in Mnemonic.i_ccmpnl_oii (widen_op (o 0)) (n 1) (n 2));
   mkB "ccmpnl_ooi" (fun v => let (o, a, r, n, e, s) := v in Mnemonic32.i_ccmpnl_ooi (o 0) (o 1) (n 2))
     (fun v => let (o, a, r, n, e, s) := v in Mnemonic.i_ccmpnl_ooi (widen_op (o 0)) (widen_op (o 1)) (n 2));
   mkB "ccmpnle_oii" (fun v => let (o, a, r, n, e, s) := v in Mnemonic32.i_ccmpnle_oii (o 0) (n 1) (n 2))
     (fun v => let (o, a, r, n, e, s) := v in Mnemonic.i_ccmpnle_oii (widen_op (o 0)) (n 1) (n 2));
   mkB "ccmpnle_ooi" (fun v => let (o, a, r, n, e, s) := v in Mnemonic32.i_ccmpnle_ooi (o 0) (o 1) (n 2))
     (fun v => let (o, a, r, n, e, s) := v in Mnemonic.i_ccmpnle_ooi (widen_op (o 0)) (widen_op (o 1)) (n 2));
   mkB "ccmpno_oii" (fun v => let (o, a, r, n, e, s) := v in Mnemonic32.i_ccmpno_oii (o 0) (n 1) (n 2))
     (fun v => let (o, a, r, n, e, s) := v in Mnemonic.i_ccmpno_oii (widen_op (o 0)) (n 1) (n 2));
   mkB "ccmpno_ooi" (fun v => let (o, a, r, n, e, s) := v in Mnemonic32.i_ccmpno_ooi (o 0) (o 1) (n 2))
     (fun v => let (o, a, r, n, e, s) := v in Mnemonic.i_ccmpno_ooi (widen_op (o 0)) (widen_op (o 1)) (n 2));
   mkB "ccmpns_oii" (fun v => let (o, a, r, n, e, s) := v in Mnemonic32.i_ccmpns_oii (o 0) (n 1) (n 2))
     (fun v => let (o, a, r, n, e, s) := v in Mnemonic.i_ccmpns_oii (widen_op (o 0)) (n 1) (n 2));
   mkB "ccmpns_ooi" (fun v => let (o, a, r, n, e, s) := v in Mnemonic32.i_ccmpns_ooi (o 0) (o 1) (n 2))
     (fun v => let (o, a, r, n, e, s) := v in Mnemonic.i_ccmpns_ooi (widen_op (o 0)) (widen_op (o 1)) (n 2));
   mkB "ccmpnz_oii" (fun v => let (o, a, r, n, e, s) := v in Mnemonic32.i_ccmpnz_oii (o 0) (n 1) (n 2))
     (fun v => let (o, a, r, n, e, s) := v in Mnemonic.i_ccmpnz_oii (widen_op (o 0)) (n 1) (n 2));
   mkB "ccmpnz_ooi" (fun v => let (o, a, r, n, e, s) := v in Mnemonic32.i_ccmpnz_ooi (o 0) (o 1) (n 2))
     (fun v => let (o, a, r, n, e, s) := v in Mnemonic.i_ccmpnz_ooi (widen_op (o 0)) (widen_op (o 1)) (n 2));
   mkB "ccmpo_oii" (fun v => let (o, a, r, n, e, s) := v in Mnemonic32.i_ccmpo_oii (o 0) (n 1) (n 2))
     (fun v => let (o, a, r, n, e, s) := v in Mnemonic.i_ccmpo_oii (widen_op (o 0)) (n 1) (n 2));
   mkB "ccmpo_ooi" (fun v => let (o, a, r, n, e, s) := v in Mnemonic32.i_ccmpo_ooi (o 0) (o 1) (n 2))
     (fun v => let (o, a, r, n, e, s) := v in Mnemonic.i_ccmpo_ooi (widen_op (o 0)) (widen_op (o 1)) (n 2));
   mkB "ccmps_oii" (fun v => let (o, a, r, n, e, s) := v in Mnemonic32.i_ccmps_oii (o 0) (n 1) (n 2))
     (fun v => let (o, a, r, n, e, s) := v in Mnemonic.i_ccmps_oii (widen_op (o 0)) (n 1) (n 2));
   mkB "ccmps_ooi" (fun v => let (o, a, r, n, e, s) := v in Mnemonic32.i_ccmps_ooi (o 0) (o 1) (n 2))
     (fun v => let (o, a, r, n, e, s) := v in Mnemonic.i_ccmps_ooi (widen_op (o 0)) (widen_op (o 1)) (n 2));
   mkB "ccmpt_oii" (fun v => let (o, a, r, n, e, s) := v in Mnemonic32.i_ccmpt_oii (o 0) (n 1) (n 2))
     (fun v => let (o, a, r, n, e, s) := v in Mnemonic.i_ccmpt_oii (widen_op (o 0)) (n 1) (n 2));
   mkB "ccmpt_ooi" (fun v => let (o, a, r, n, e, s) := v in Mnemonic32.i_ccmpt_ooi (o 0) (o 1) (n 2))
     (fun v => let (o, a, r, n, e, s) := v in Mnemonic.i_ccmpt_ooi (widen_op (o 0)) (widen_op (o 1)) (n 2));
   mkB "ccmpz_oii" (fun v => let (o, a, r, n, e, s) := v in Mnemonic32.i_ccmpz_oii (o 0) (n 1) (n 2))
     (fun v => let (o, a, r, n, e, s) := v in Mnemonic.i_ccmpz_oii (widen_op (o 0)) (n 1) (n 2));
   mkB "ccmpz_ooi" (fun v => let (o, a, r, n, e, s) := v in Mnemonic32.i_ccmpz_ooi (o 0) (o 1) (n 2))
     (fun v => let (o, a, r, n, e, s) := v in Mnemonic.i_ccmpz_ooi (widen_op (o 0)) (widen_op (o 1)) (n 2));
   mkB "cfcmovb_oo" (fun v => let (o, a, r, n, e, s) := v in Mnemonic32.i_cfcmovb_oo (o 0) (o 1))
     (fun v => let (o, a, r, n, e, s) := v in Mnemonic.i_cfcmovb_oo (widen_op (o 0)) (widen_op (o 1)));
   mkB "cfcmovb_rro" (fun v => let (o, a, r, n, e, s) := v in Mnemonic32.i_cfcmovb_rro (r 0) (r 1) (o 2))
     (fun v => let (o, a, r, n, e, s) := v in Mnemonic.i_cfcmovb_rro (r 0) (r 1) (widen_op (o 2)));
   mkB "cfcmovbe_oo" (fun v => let (o, a, r, n, e, s) := v in Mnemonic32.i_cfcmovbe_oo (o 0) (o 1))
     (fun v => let (o, a, r, n, e, s) := v in Mnemonic.i_cfcmovbe_oo (widen_op (o 0)) (widen_op (o 1)));
   mkB "cfcmovbe_rro" (fun v => let (o, a, r, n, e, s) := v in Mnemonic32.i_cfcmovbe_rro (r 0) (r 1) (o 2))
     (fun v => let (o, a, r, n, e, s) := v in Mnemonic.i_cfcmovbe_rro (r 0) (r 1) (widen_op (o 2)));
   mkB "cfcmovl_oo" (fun v => let (o, a, r, n, e, s) := v in Mnemonic32.i_cfcmovl_oo (o 0) (o 1))
     (fun v => let (o, a, r, n, e, s) := v in Mnemonic.i_cfcmovl_oo (widen_op (o 0)) (widen_op (o 1)));
   mkB "cfcmovl_rro" (fun v => let (o, a, r, n, e, s) := v in Mnemonic32.i_cfcmovl_rro (r 0) (r 1) (o 2))
     (fun v => let (o, a, r, n, e, s) := v in Mnemonic.i_cfcmovl_rro (r 0) (r 1) (widen_op (o 2)));
   mkB "cfcmovle_oo" (fun v => let (o, a, r, n, e, s) := v in Mnemonic32.i_cfcmovle_oo (o 0) (o 1))
     (fun v => let (o, a, r, n, e, s) := v in Mnemonic.i_cfcmovle_oo (widen_op (o 0)) (widen_op (o 1)))].
Lemma sims4_ok : Forall same sims4.
Proof. unfold sims4.
row. { unfold Mnemonic32.i_ccmpnl_oii, Mnemonic.i_ccmpnl_oii. row_sim. }
row. { unfold Mnemonic32.i_ccmpnl_ooi, Mnemonic.i_ccmpnl_ooi. row_sim. }
row. { unfold Mnemonic32.i_ccmpnle_oii, Mnemonic.i_ccmpnle_oii. row_sim. }
row. { unfold Mnemonic32.i_ccmpnle_ooi, Mnemonic.i_ccmpnle_ooi. row_sim. }
row. { unfold Mnemonic32.i_ccmpno_oii, Mnemonic.i_ccmpno_oii. row_sim. }
row. { unfold Mnemonic32.i_ccmpno_ooi, Mnemonic.i_ccmpno_ooi. row_sim. }
row. { unfold Mnemonic32.i_ccmpns_oii, Mnemonic.i_ccmpns_oii. row_sim. }
row. { unfold Mnemonic32.i_ccmpns_ooi, Mnemonic.i_ccmpns_ooi. row_sim. }
row. { unfold Mnemonic32.i_ccmpnz_oii, Mnemonic.i_ccmpnz_oii. row_sim. }
row. { unfold Mnemonic32.i_ccmpnz_ooi, Mnemonic.i_ccmpnz_ooi. row_sim. }
row. { unfold Mnemonic32.i_ccmpo_oii, Mnemonic.i_ccmpo_oii. row_sim. }
row. { unfold Mnemonic32.i_ccmpo_ooi, Mnemonic.i_ccmpo_ooi. row_sim. }
row. { unfold Mnemonic32.i_ccmps_oii, Mnemonic.i_ccmps_oii. row_sim. }
row. { unfold Mnemonic32.i_ccmps_ooi, Mnemonic.i_ccmps_ooi. row_sim. }
row. { unfold Mnemonic32.i_ccmpt_oii, Mnemonic.i_ccmpt_oii. row_sim. }
row. { unfold Mnemonic32.i_ccmpt_ooi, Mnemonic.i_ccmpt_ooi. row_sim. }
row. { unfold Mnemonic32.i_ccmpz_oii, Mnemonic.i_ccmpz_oii. row_sim. }
row. { unfold Mnemonic32.i_ccmpz_ooi, Mnemonic.i_ccmpz_ooi. row_sim. }
row. { unfold Mnemonic32.i_cfcmovb_oo, Mnemonic.i_cfcmovb_oo. row_sim. }
row. { unfold Mnemonic32.i_cfcmovb_rro, Mnemonic.i_cfcmovb_rro. row_sim. }
row. { unfold Mnemonic32.i_cfcmovbe_oo, Mnemonic.i_cfcmovbe_oo. row_sim. }
row. { unfold Mnemonic32.i_cfcmovbe_rro, Mnemonic.i_cfcmovbe_rro. row_sim. }
row. { unfold Mnemonic32.i_cfcmovl_oo, Mnemonic.i_cfcmovl_oo. row_sim. }
row. { unfold Mnemonic32.i_cfcmovl_rro, Mnemonic.i_cfcmovl_rro. row_sim. }
row. { unfold Mnemonic32.i_cfcmovle_oo, Mnemonic.i_cfcmovle_oo. row_sim. }
apply Forall_nil. Qed.
Definition sims5 : list b_entry :=
  [mkB "cfcmovle_rro" (fun v => let (o, a, r, n, e, s) := v in Mnemonic32.i_cfcmovle_rro (r 0) (r 1) (o 2))
     (fun v => let (o, a, r, n, e, s) := v in Mnemonic.i_cfcmovle_rro (r 0) (r 1) (widen_op (o 2)));
   mkB "cfcmovnb_oo" (fun v => let (o, a, r, n, e, s) := v in Mnemonic32.i_cfcmovnb_oo (o 0) (o 1))
     (fun v => let (o, a, r, n, e, s) := v in Mnemonic.i_cfcmovnb_oo (widen_op (o 0)) (widen_op (o 1)));
   mkB "cfcmovnb_rro" (fun v => let (o, a, r, n, e, s) := v in Mnemonic32.i_cfcmovnb_rro (r 0) (r 1) (o 2))
     (fun v => let (o, a, r, n, e, s) := v in Mnemonic.i_cfcmovnb_rro (r 0) (r 1) (widen_op (o 2)));
   mkB "cfcmovnbe_oo" (fun v => let (o, a, r, n, e, s) := v in Mnemonic32.i_cfcmovnbe_oo (o 0) (o 1))
     (fun v => let (o, a, r, n, e, s) := v in Mnemonic.i_cfcmovnbe_oo (widen_op (o 0)) (widen_op (o 1)));
   mkB "cfcmovnbe_rro" (fun v => let (o, a, r, n, e, s) := v in Mnemonic32.i_cfcmovnbe_rro (r 0) (r 1) (o 2))
     (fun v => let (o, a, r, n, e, s) := v in Mnemonic.i_cfcmovnbe_rro (r 0) (r 1) (widen_op (o 2)));
   mkB "cfcmovnl_oo" (fun v => let (o, a, r, n, e, s) := v in Mnemonic32.i_cfcmovnl_oo (o 0) (o 1))
     (fun v => let (o, a, r, n, e, s) := v in Mnemonic.i_cfcmovnl_oo (widen_op (o 0)) (widen_op (o 1)));
   mkB "cfcmovnl_rro" (fun v => let (o, a, r, n, e, s) := v in Mnemonic32.i_cfcmovnl_rro (r 0) (r 1) (o 2))
     (fun v => let (o, a, r, n, e, s) := v in Mnemonic.i_cfcmovnl_rro (r 0) (r 1) (widen_op (o 2)));
   mkB "cfcmovnle_oo" (fun v => let (o, a, r, n, e, s) := v in Mnemonic32.i_cfcmovnle_oo (o 0) (o 1))
     (fun v => let (o, a, r, n, e, s) := v in Mnemonic.i_cfcmovnle_oo (widen_op (o 0)) (widen_op (o 1)));
   mkB "cfcmovnle_rro" (fun v => let (o, a, r, n, e, s) := v in Mnemonic32.i_cfcmovnle_rro (r 0) (r 1) (o 2))
     (fun v => let (o, a, r, n, e, s) := v in Mnemonic.i_cfcmovnle_rro (r 0) (r 1) (widen_op (o 2)));
   mkB "cfcmovno_oo" (fun v => let (o, a, r, n, e, s) := v in Mnemonic32.i_cfcmovno_oo (o 0) (o 1))
     (fun v => let (o, a, r, n, e, s) := v in Mnemonic.i_cfcmovno_oo (widen_op (o 0)) (widen_op (o 1)));
   mkB "cfcmovno_rro" (fun v => let (o, a, r, n, e, s) := v in Mnemonic32.i_cfcmovno_rro (r 0) (r 1) (o 2))
     (fun v => let (o, a, r, n, e, s) := v in Mnemonic.i_cfcmovno_rro (r 0) (r 1) (widen_op (o 2)));
   mkB "cfcmovnp_oo" (fun v => let (o, a, r, n, e, s) := v in Mnemonic32.i_cfcmovnp_oo (o 0) (o 1))
     (fun v => let (o, a, r, n, e, s) := v in Mnemonic.i_cfcmovnp_oo (widen_op (o 0)) (widen_op (o 1)));
   mkB "cfcmovnp_rro" (fun v => let (o, a, r, n, e, s) := v in Mnemonic32.i_cfcmovnp_rro (r 0) (r 1) (o 2))
     (fun v => let (o, a, r, n, e, s) := v in Mnemonic.i_cfcmovnp_rro (r 0) (r 1) (widen_op (o 2)));
   mkB "cfcmovns_oo" (fun v => let (o, a, r, n, e, s) := v in Mnemonic32.i_cfcmovns_oo (o 0) (o 1))
     (fun v => let (o, a, r, n, e, s) := v in Mnemonic.i_cfcmovns_oo (widen_op (o 0)) (widen_op (o 1)));
   mkB "cfcmovns_rro" (fun v => let (o, a, r, n, e, s) := v in Mnemonic32.i_cfcmovns_rro (r 0) (r 1) (o 2))
     (fun v => let (o, a, r, n, e, s) := v in Mnemonic.i_cfcmovns_rro (r 0) (r 1) (widen_op (o 2)));
   mkB "cfcmovnz_oo" (fun v => let (o, a, r, n, e, s) := v in Mnemonic32.i_cfcmovnz_oo (o 0) (o 1))
     (fun v => let (o, a, r, n, e, s) := v in Mnemonic.i_cfcmovnz_oo (widen_op (o 0)) (widen_op (o 1)));
   mkB "cfcmovnz_rro" (fun v => let (o, a, r, n, e, s) := v in Mnemonic32.i_cfcmovnz_rro (r 0) (r 1) (o 2))
     (fun v => let (o, a, r, n, e, s) := v in Mnemonic.i_cfcmovnz_rro (r 0) (r 1) (widen_op (o 2)));
   mkB "cfcmovo_oo" (fun v => let (o, a, r, n, e, s) := v in Mnemonic32.i_cfcmovo_oo (o 0) (o 1))
     (fun v => let (o, a, r, n, e, s) := v in Mnemonic.i_cfcmovo_oo (widen_op (o 0)) (widen_op (o 1)));
   mkB "cfcmovo_rro" (fun v => let (o, a, r, n, e, s) := v in Mnemonic32.i_cfcmovo_rro (r 0) (r 1) (o 2))
     (fun v => let (o, a, r, n, e, s) := v in Mnemonic.i_cfcmovo_rro (r 0) (r 1) (widen_op (o 2)));
   mkB "cfcmovp_oo" (fun v => let (o, a, r, n, e, s) := v in Mnemonic32.i_cfcmovp_oo (o 0) (o 1))
     (fun v => let (o, a, r, n, e, s) := v in Mnemonic.i_cfcmovp_oo (widen_op (o 0)) (widen_op (o 1)));
   mkB "cfcmovp_rro" (fun v => let (o, a, r, n, e, s) := v in Mnemonic32.i_cfcmovp_rro (r 0) (r 1) (o 2))
     (fun v => let (o, a, r, n, e, s) := v in Mnemonic.i_cfcmovp_rro (r 0) (r 1) (widen_op (o 2)));
   mkB "cfcmovs_oo" (fun v => let (o, a, r, n, e, s) := v in Mnemonic32.i_cfcmovs_oo (o 0) (o 1))
     (fun v => let (o, a, r, n, e, s) := v in Mnemonic.i_cfcmovs_oo (widen_op (o 0)) (widen_op (o 1)));
   mkB "cfcmovs_rro" (fun v => let (o, a, r, n, e, s) := v in Mnemonic32.i_cfcmovs_rro (r 0) (r 1) (o 2))
     (fun v => let (o, a, r, n, e, s) := v in Mnemonic.i_cfcmovs_rro (r 0) (r 1) (widen_op (o 2)));
   mkB "cfcmovz_oo" (fun v => let (o, a, r, n, e, s) := v in Mnemonic32.i_cfcmovz_oo (o 0) (o 1))
     (fun v => let (o, a, r, n, e, s) := v in Mnemonic.i_cfcmovz_oo (widen_op (o 0)) (widen_op (o 1)));
   mkB "cfcmovz_rro" (fun v => let (o, a, r, n, e, s) := v in Mnemonic32.i_cfcmovz_rro (r 0) (r 1) (o 2))
     (fun v => let (o, a, r, n, e, s) := v in Mnemonic.i_cfcmovz_rro (r 0) (r 1) (widen_op (o 2)))].
Lemma sims5_ok : Forall same sims5.
Proof. unfold sims5.
row. { unfold Mnemonic32.i_cfcmovle_rro, Mnemonic.i_cfcmovle_rro. row_sim. }
row. { unfold Mnemonic32.i_cfcmovnb_oo, Mnemonic.i_cfcmovnb_oo. row_sim. }
row. { unfold Mnemonic32.i_cfcmovnb_rro, Mnemonic.i_cfcmovnb_rro. row_sim. }
row. { unfold Mnemonic32.i_cfcmovnbe_oo, Mnemonic.i_cfcmovnbe_oo. row_sim. }
row. { unfold Mnemonic32.i_cfcmovnbe_rro, Mnemonic.i_cfcmovnbe_rro. row_sim. }
row. { unfold Mnemonic32.i_cfcmovnl_oo, Mnemonic.i_cfcmovnl_oo. row_sim. }
row. { unfold Mnemonic32.i_cfcmovnl_rro, Mnemonic.i_cfcmovnl_rro. row_sim. }
row. { unfold Mnemonic32.i_cfcmovnle_oo, Mnemonic.i_cfcmovnle_oo. row_sim. }
row. { unfold Mnemonic32.i_cfcmovnle_rro, Mnemonic.i_cfcmovnle_rro. row_sim. }
row. { unfold Mnemonic32.i_cfcmovno_oo, Mnemonic.i_cfcmovno_oo. row_sim. }
row. { unfold Mnemonic32.i_cfcmovno_rro, Mnemonic.i_cfcmovno_rro. row_sim. }
row. { unfold Mnemonic32.i_cfcmovnp_oo, Mnemonic.i_cfcmovnp_oo. row_sim. }
row. { unfold Mnemonic32.i_cfcmovnp_rro, Mnemonic.i_cfcmovnp_rro. row_sim. }
row. { unfold Mnemonic32.i_cfcmovns_oo, Mnemonic.i_cfcmovns_oo. row_sim. }
row. { unfold Mnemonic32.i_cfcmovns_rro, Mnemonic.i_cfcmovns_rro. row_sim. }
row. { unfold Mnemonic32.i_cfcmovnz_oo, Mnemonic.i_cfcmovnz_oo. row_sim. }
row. { unfold Mnemonic32.i_cfcmovnz_rro, Mnemonic.i_cfcmovnz_rro. row_sim. }
row. { unfold Mnemonic32.i_cfcmovo_oo, Mnemonic.i_cfcmovo_oo. row_sim. }
row. { unfold Mnemonic32.i_cfcmovo_rro, Mnemonic.i_cfcmovo_rro. row_sim. }
row. { unfold Mnemonic32.i_cfcmovp_oo, Mnemonic.i_cfcmovp_oo. row_sim. }
row. { unfold Mnemonic32.i_cfcmovp_rro, Mnemonic.i_cfcmovp_rro. row_sim. }
row. { unfold Mnemonic32.i_cfcmovs_oo, Mnemonic.i_cfcmovs_oo. row_sim. }
row. { unfold Mnemonic32.i_cfcmovs_rro, Mnemonic.i_cfcmovs_rro. row_sim. }
row. { unfold Mnemonic32.i_cfcmovz_oo, Mnemonic.i_cfcmovz_oo. row_sim. }
row. { unfold Mnemonic32.i_cfcmovz_rro, Mnemonic.i_cfcmovz_rro. row_sim. }
apply Forall_nil. Qed.
Definition sims6 : list b_entry :=
  [mkB "cldemote" (fun v => let (o, a, r, n, e, s) := v in Mnemonic32.i_cldemote (a 0))
     (fun v => let (o, a, r, n, e, s) := v in Mnemonic.i_cldemote (widen_addr (a 0)));
   mkB "clflush" (fun v => let (o, a, r, n, e, s) := v in Mnemonic32.i_clflush (a 0))
     (fun v => let (o, a, r, n, e, s) := v in Mnemonic.i_clflush (widen_addr (a 0)));
   mkB "clflushopt" (fun v => let (o, a, r, n, e, s) := v in Mnemonic32.i_clflushopt (a 0))
     (fun v => let (o, a, r, n, e, s) := v in Mnemonic.i_clflushopt (widen_addr (a 0)));
   mkB "clwb" (fun v => let (o, a, r, n, e, s) := v in Mnemonic32.i_clwb (a 0))
     (fun v => let (o, a, r, n, e, s) := v in Mnemonic.i_clwb (widen_addr (a 0)));
   mkB "cmova_rro" (fun v => let (o, a, r, n, e, s) := v in Mnemonic32.i_cmova_rro (r 0) (r 1) (o 2))
     (fun v => let (o, a, r, n, e, s) := v in Mnemonic.i_cmova_rro (r 0) (r 1) (widen_op (o 2)));
   mkB "cmova_ro" (fun v => let (o, a, r, n, e, s) := v in Mnemonic32.i_cmova_ro (r 0) (o 1))
     (fun v => let (o, a, r, n, e, s) := v in Mnemonic.i_cmova_ro (r 0) (widen_op (o 1)));
   mkB "cmovae_rro" (fun v => let (o, a, r, n, e, s) := v in Mnemonic32.i_cmovae_rro (r 0) (r 1) (o 2))
     (fun v => let (o, a, r, n, e, s) := v in Mnemonic.i_cmovae_rro (r 0) (r 1) (widen_op (o 2)));
   mkB "cmovae_ro" (fun v => let (o, a, r, n, e, s) := v in Mnemonic32.i_cmovae_ro (r 0) (o 1))
     (fun v => let (o, a, r, n, e, s) := v in Mnemonic.i_cmovae_ro (r 0) (widen_op (o 1)));
   mkB "cmovb_rro" (fun v => let (o, a, r, n, e, s) := v in Mnemonic32.i_cmovb_rro (r 0) (r 1) (o 2))
     (fun v => let (o, a, r, n, e, s) := v in Mnemonic.i_cmovb_rro (r 0) (r 1) (widen_op (o 2)));
   mkB "cmovb_ro" (fun v => let (o, a, r, n, e, s) := v in Mnemonic32.i_cmovb_ro (r 0) (o 1))
     (fun v => let (o, a, r, n, e, s) := v in Mnemonic.i_cmovb_ro (r 0) (widen_op (o 1)));
   mkB "cmovbe_rro" (fun v => let (o, a, r, n, e, s) := v in Mnemonic32.i_cmovbe_rro (r 0) (r 1) (o 2))
     (fun v => let (o, a, r, n, e, s) := v in Mnemonic.i_cmovbe_rro (r 0) (r 1) (widen_op (o 2)));
   mkB "cmovbe_ro" (fun v => let (o, a, r, n, e, s) := v in Mnemonic32.i_cmovbe_ro (r 0) (o 1))
     (fun v => let (o, a, r, n, e, s) := v in Mnemonic.i_cmovbe_ro (r 0) (widen_op (o 1)));
   mkB "cmovc_rro" (fun v => let (o, a, r, n, e, s) := v in Mnemonic32.i_cmovc_rro (r 0) (r 1) (o 2))
     (fun v => let (o, a, r, n, e, s) := v in Mnemonic.i_cmovc_rro (r 0) (r 1) (widen_op (o 2)));
   mkB "cmovc_ro" (fun v => let (o, a, r, n, e, s) := v in Mnemonic32.i_cmovc_ro (r 0) (o 1))
     (fun v => let (o, a, r, n, e, s) := v in Mnemonic.i_cmovc_ro (r 0) (widen_op (o 1)));
   mkB "cmove_rro" (fun v => let (o, a, r, n, e, s) := v in Mnemonic32.i_cmove_rro (r 0) (r 1) (o 2))
     (fun v => let (o, a, r, n, e, s) := v in Mnemonic.i_cmove_rro (r 0) (r 1) (widen_op (o 2)));
   mkB "cmove_ro" (fun v => let (o, a, r, n, e, s) := v in Mnemonic32.i_cmove_ro (r 0) (o 1))
     (fun v => let (o, a, r, n, e, s) := v in Mnemonic.i_cmove_ro (r 0) (widen_op (o 1)));
   mkB "cmovg_rro" (fun v => let (o, a, r, n, e, s) := v in Mnemonic32.i_cmovg_rro (r 0) (r 1) (o 2))
     (fun v => let (o, a, r, n, e, s) := v in Mnemonic.i_cmovg_rro (r 0) (r 1) (widen_op (o 2)));
   mkB "cmovg_ro" (fun v => let (o, a, r, n, e, s) := v in Mnemonic32.i_cmovg_ro (r 0) (o 1))
     (fun v => let (o, a, r, n, e, s) := v in Mnemonic.i_cmovg_ro (r 0) (widen_op (o 1)));
   mkB "cmovge_rro" (fun v => let (o, a, r, n, e, s) := v in Mnemonic32.i_cmovge_rro (r 0) (r 1) (o 2))
     (fun v => let (o, a, r, n, e, s) := v in Mnemonic.i_cmovge_rro (r 0) (r 1) (widen_op (o 2)));
   mkB "cmovge_ro" (fun v => let (o, a, r, n, e, s) := v in Mnemonic32.i_cmovge_ro (r 0) (o 1))
     (fun v => let (o, a, r, n, e, s) := v in Mnemonic.i_cmovge_ro (r 0) (widen_op (o 1)));
   mkB "cmovl_rro" (fun v => let (o, a, r, n, e, s) := v in Mnemonic32.i_cmovl_rro (r 0) (r 1) (o 2))
     (fun v => let (o, a, r, n, e, s) := v in Mnemonic.i_cmovl_rro (r 0) (r 1) (widen_op (o 2)));
   mkB "cmovl_ro" (fun v => let (o, a, r, n, e, s) := v in Mnemonic32.i_cmovl_ro (r 0) (o 1))
     (fun v => let (o, a, r, n, e, s) := v in Mnemonic.i_cmovl_ro (r 0) (widen_op (o 1)));
   mkB "cmovle_rro" (fun v => let (o, a, r, n, e, s) := v in Mnemonic32.i_cmovle_rro (r 0) (r 1) (o 2))
     (fun v => let (o, a, r, n, e, s) := v in Mnemonic.i_cmovle_rro (r 0) (r 1) (widen_op (o 2)));
   mkB "cmovle_ro" (fun v => let (o, a, r, n, e, s) := v in Mnemonic32.i_cmovle_ro (r 0) (o 1))
     (fun v => let (o, a, r, n, e, s) := v in Mnemonic.i_cmovle_ro (r 0) (widen_op (o 1)));
   mkB "cmovna_rro" (fun v => let (o, a, r, n, e, s) := v in Mnemonic32.i_cmovna_rro (r 0) (r 1) (o 2))
     (fun v => let (o, a, r, n, e, s) := v in Mnemonic.i_cmovna_rro (r 0) (r 1) (widen_op (o 2)))].
Lemma sims6_ok : Forall same sims6.
Proof. unfold sims6.
row. { unfold Mnemonic32.i_cldemote, Mnemonic.i_cldemote. row_sim. }
row. { unfold Mnemonic32.i_clflush, Mnemonic.i_clflush. row_sim. }
row. { unfold Mnemonic32.i_clflushopt, Mnemonic.i_clflushopt. row_sim. }
row. { unfold Mnemonic32.i_clwb, Mnemonic.i_clwb. row_sim. }
row. { unfold Mnemonic32.i_cmova_rro, Mnemonic.i_cmova_rro. row_sim. }
srow_. { unfold Mnemonic32.i_cmova_ro, Mnemonic.i_cmova_ro. row_sim. }
row. { unfold Mnemonic32.i_cmovae_rro, Mnemonic.i_cmovae_rro. row_sim. }
srow_. { unfold Mnemonic32.i_cmovae_ro, Mnemonic.i_cmovae_ro. row_sim. }
row. { unfold Mnemonic32.i_cmovb_rro, Mnemonic.i_cmovb_rro. row_sim. }
srow_. { unfold Mnemonic32.i_cmovb_ro, Mnemonic.i_cmovb_ro. row_sim. }
row. { unfold Mnemonic32.i_cmovbe_rro, Mnemonic.i_cmovbe_rro. row_sim. }
srow_. { unfold Mnemonic32.i_cmovbe_ro, Mnemonic.i_cmovbe_ro. row_sim. }
row. { unfold Mnemonic32.i_cmovc_rro, Mnemonic.i_cmovc_rro. row_sim. }
srow_. { unfold Mnemonic32.i_cmovc_ro, Mnemonic.i_cmovc_ro. row_sim. }
row. { unfold Mnemonic32.i_cmove_rro, Mnemonic.i_cmove_rro. row_sim. }
srow_. { unfold Mnemonic32.i_cmove_ro, Mnemonic.i_cmove_ro. row_sim. }
row. { unfold Mnemonic32.i_cmovg_rro, Mnemonic.i_cmovg_rro. row_sim. }
srow_. { unfold Mnemonic32.i_cmovg_ro, Mnemonic.i_cmovg_ro. row_sim. }
row. { unfold Mnemonic32.i_cmovge_rro, Mnemonic.i_cmovge_rro. row_sim. }
srow_. { unfold Mnemonic32.i_cmovge_ro, Mnemonic.i_cmovge_ro. row_sim. }
row. { unfold Mnemonic32.i_cmovl_rro, Mnemonic.i_cmovl_rro. row_sim. }
srow_. { unfold Mnemonic32.i_cmovl_ro, Mnemonic.i_cmovl_ro. row_sim. }
row. { unfold Mnemonic32.i_cmovle_rro, Mnemonic.i_cmovle_rro. row_sim. }
srow_. { unfold Mnemonic32.i_cmovle_ro, Mnemonic.i_cmovle_ro. row_sim. }
row. { unfold Mnemonic32.i_cmovna_rro, Mnemonic.i_cmovna_rro. row_sim. }
apply Forall_nil. Qed.
Definition sims7 : list b_entry :=
  [mkB "cmovna_ro" (fun v => let (o, a, r, n, e, s) := v in Mnemonic32.i_cmovna_ro (r 0) (o 1))
     (fun v => let (o, a, r, n, e, s) := v in Mnemonic.i_cmovna_ro (r 0) (widen_op (o 1)));
   mkB "cmovnae_rro" (fun v => let (o, a, r, n, e, s) := v in Mnemonic32.i_cmovnae_rro (r 0) (r 1) (o 2))
     (fun v => let (o, a, r, n, e, s) := v in Mnemonic.i_cmovnae_rro (r 0) (r 1) (widen_op (o 2)));
   mkB "cmovnae_ro" (fun v => let (o, a, r, n, e, s) := v in Mnemonic32.i_cmovnae_ro (r 0) (o 1))
     (fun v => let (o, a, r, n, e, s) := v in Mnemonic.i_cmovnae_ro (r 0) (widen_op (o 1)));
   mkB "cmovnb_rro" (fun v => let (o, a, r, n, e, s) := v in Mnemonic32.i_cmovnb_rro (r 0) (r 1) (o 2))
     (fun v => let (o, a, r, n, e, s) := v in Mnemonic.i_cmovnb_rro (r 0) (r 1) (widen_op (o 2)));
   mkB "cmovnb_ro" (fun v => let (o, a, r, n, e, s) := v in Mnemonic32.i_cmovnb_ro (r 0) (o 1))
     (fun v => let (o, a, r, n, e, s) := v in Mnemonic.i_cmovnb_ro (r 0) (widen_op (o 1)));
   mkB "cmovnbe_rro" (fun v => let (o, a, r, n, e, s) := v in Mnemonic32.i_cmovnbe_rro (r 0) (r 1) (o 2))
     (fun v => let (o, a, r, n, e, s) := v in Mnemonic.i_cmovnbe_rro (r 0) (r 1) (widen_op (o 2)));
   mkB "cmovnbe_ro" (fun v => let (o, a, r, n, e, s) := v in Mnemonic32.i_cmovnbe_ro (r 0) (o 1))
     (fun v => let (o, a, r, n, e, s) := v in Mnemonic.i_cmovnbe_ro (r 0) (widen_op (o 1)));
   mkB "cmovnc_rro" (fun v => let (o, a, r, n, e, s) := v in Mnemonic32.i_cmovnc_rro (r 0) (r 1) (o 2))
     (fun v => let (o, a, r, n, e, s) := v in Mnemonic.i_cmovnc_rro (r 0) (r 1) (widen_op (o 2)));
   mkB "cmovnc_ro" (fun v => let (o, a, r, n, e, s) := v in Mnemonic32.i_cmovnc_ro (r 0) (o 1))
     (fun v => let (o, a, r, n, e, s) := v in Mnemonic.i_cmovnc_ro (r 0) (widen_op (o 1)));
   mkB "cmovne_rro" (fun v => let (o, a, r, n, e, s) := v in Mnemonic32.i_cmovne_rro (r 0) (r 1) (o 2))
     (fun v => let (o, a, r, n, e, s) := v in Mnemonic.i_cmovne_rro (r 0) (r 1) (widen_op (o 2)));
   mkB "cmovne_ro" (fun v => let (o, a, r, n, e, s) := v in Mnemonic32.i_cmovne_ro (r 0) (o 1))
     (fun v => let (o, a, r, n, e, s) := v in Mnemonic.i_cmovne_ro (r 0) (widen_op (o 1)));
   mkB "cmovng_rro" (fun v => let (o, a, r, n, e, s) := v in Mnemonic32.i_cmovng_rro (r 0) (r 1) (o 2))
     (fun v => let (o, a, r, n, e, s) := v in Mnemonic.i_cmovng_rro (r 0) (r 1) (widen_op (o 2)));
   mkB "cmovng_ro" (fun v => let (o, a, r, n, e, s) := v in Mnemonic32.i_cmovng_ro (r 0) (o 1))
     (fun v => let (o, a, r, n, e, s) := v in Mnemonic.i_cmovng_ro (r 0) (widen_op (o 1)));
   mkB "cmovnge_rro" (fun v => let (o, a, r, n, e, s) := v in Mnemonic32.i_cmovnge_rro (r 0) (r 1) (o 2))
     (fun v => let (o, a, r, n, e, s) := v in Mnemonic.i_cmovnge_rro (r 0) (r 1) (widen_op (o 2)));
   mkB "cmovnge_ro" (fun v => let (o, a, r, n, e, s) := v in Mnemonic32.i_cmovnge_ro (r 0) (o 1))
     (fun v => let (o, a, r, n, e, s) := v in Mnemonic.i_cmovnge_ro (r 0) (widen_op (o 1)));
   mkB "cmovnl_rro" (fun v => let (o, a, r, n, e, s) := v in Mnemonic32.i_cmovnl_rro (r 0) (r 1) (o 2))
     (fun v => let (o, a, r, n, e, s) := v in Mnemonic.i_cmovnl_rro (r 0) (r 1) (widen_op (o 2)));
   mkB "cmovnl_ro" (fun v => let (o, a, r, n, e, s) := v in Mnemonic32.i_cmovnl_ro (r 0) (o 1))
     (fun v => let (o, a, r, n, e, s) := v in Mnemonic.i_cmovnl_ro (r 0) (widen_op (o 1)));
   mkB "cmovnle_rro" (fun v => let (o, a, r, n, e, s) := v in Mnemonic32.i_cmovnle_rro (r 0) (r 1) (o 2))
     (fun v => let (o, a, r, n, e, s) := v in Mnemonic.i_cmovnle_rro (r 0) (r 1) (widen_op (o 2)));
   mkB "cmovnle_ro" (fun v => let (o, a, r, n, e, s) := v in Mnemonic32.i_cmovnle_ro (r 0) (o 1))
     (fun v => let (o, a, r, n, e, s) := v in Mnemonic.i_cmovnle_ro (r 0) (widen_op (o 1)));
   mkB "cmovno_rro" (fun v => let (o, a, r, n, e, s) := v in Mnemonic32.i_cmovno_rro (r 0) (r 1) (o 2))
     (fun v => let (o, a, r, n, e, s) := v in Mnemonic.i_cmovno_rro (r 0) (r 1) (widen_op (o 2)));
   mkB "cmovno_ro" (fun v => let (o, a, r, n, e, s) := v in Mnemonic32.i_cmovno_ro (r 0) (o 1))
     (fun v => let (o, a, r, n, e, s) := v in Mnemonic.i_cmovno_ro (r 0) (widen_op (o 1)));
   mkB "cmovnp_rro" (fun v => let (o, a, r, n, e, s) := v in Mnemonic32.i_cmovnp_rro (r 0) (r 1) (o 2))
     (fun v => let (o, a, r, n, e, s) := v in Mnemonic.i_cmovnp_rro (r 0) (r 1) (widen_op (o 2)));
   mkB "cmovnp_ro" (fun v => let (o, a, r, n, e, s) := v in Mnemonic32.i_cmovnp_ro (r 0) (o 1))
     (fun v => let (o, a, r, n, e, s) := v in Mnemonic.i_cmovnp_ro (r 0) (widen_op (o 1)));
   mkB "cmovns_rro" (fun v => let (o, a, r, n, e, s) := v in Mnemonic32.i_cmovns_rro (r 0) (r 1) (o 2))
     (fun v => let (o, a, r, n, e, s) := v in Mnemonic.i_cmovns_rro (r 0) (r 1) (widen_op (o 2)));
   mkB "cmovns_ro" (fun v => let (o, a, r, n, e, s) := v in Mnemonic32.i_cmovns_ro (r 0) (o 1))
     (fun v => let (o, a, r, n, e, s) := v in Mnemonic.i_cmovns_ro (r 0) (widen_op (o 1)))].
Lemma sims7_ok : Forall same sims7.
Proof. unfold sims7.
srow_. { unfold Mnemonic32.i_cmovna_ro, Mnemonic.i_cmovna_ro. row_sim. }
row. { unfold Mnemonic32.i_cmovnae_rro, Mnemonic.i_cmovnae_rro. row_sim. }
srow_. { unfold Mnemonic32.i_cmovnae_ro, Mnemonic.i_cmovnae_ro. row_sim. }
row. { unfold Mnemonic32.i_cmovnb_rro, Mnemonic.i_cmovnb_rro. row_sim. }
srow_. { unfold Mnemonic32.i_cmovnb_ro, Mnemonic.i_cmovnb_ro. row_sim. }
row. { unfold Mnemonic32.i_cmovnbe_rro, Mnemonic.i_cmovnbe_rro. row_sim. }
srow_. { unfold Mnemonic32.i_cmovnbe_ro, Mnemonic.i_cmovnbe_ro. row_sim. }
row. { unfold Mnemonic32.i_cmovnc_rro, Mnemonic.i_cmovnc_rro. row_sim. }
srow_. { unfold Mnemonic32.i_cmovnc_ro, Mnemonic.i_cmovnc_ro. row_sim. }
row. { unfold Mnemonic32.i_cmovne_rro, Mnemonic.i_cmovne_rro. row_sim. }
srow_. { unfold Mnemonic32.i_cmovne_ro, Mnemonic.i_cmovne_ro. row_sim. }
row. { unfold Mnemonic32.i_cmovng_rro, Mnemonic.i_cmovng_rro. row_sim. }
srow_. { unfold Mnemonic32.i_cmovng_ro, Mnemonic.i_cmovng_ro. row_sim. }
row. { unfold Mnemonic32.i_cmovnge_rro, Mnemonic.i_cmovnge_rro. row_sim. }
srow_. { unfold Mnemonic32.i_cmovnge_ro, Mnemonic.i_cmovnge_ro. row_sim. }
row. { unfold Mnemonic32.i_cmovnl_rro, Mnemonic.i_cmovnl_rro. row_sim. }
srow_. { unfold Mnemonic32.i_cmovnl_ro, Mnemonic.i_cmovnl_ro. row_sim. }
row. { unfold Mnemonic32.i_cmovnle_rro, Mnemonic.i_cmovnle_rro. row_sim. }
srow_. { unfold Mnemonic32.i_cmovnle_ro, Mnemonic.i_cmovnle_ro. row_sim. }
row. { unfold Mnemonic32.i_cmovno_rro, Mnemonic.i_cmovno_rro. row_sim. }
srow_. { unfold Mnemonic32.i_cmovno_ro, Mnemonic.i_cmovno_ro. row_sim. }
row. { unfold Mnemonic32.i_cmovnp_rro, Mnemonic.i_cmovnp_rro. row_sim. }
srow_. { unfold Mnemonic32.i_cmovnp_ro, Mnemonic.i_cmovnp_ro. row_sim. }
row. { unfold Mnemonic32.i_cmovns_rro, Mnemonic.i_cmovns_rro. row_sim. }
srow_. { unfold Mnemonic32.i_cmovns_ro, Mnemonic.i_cmovns_ro. row_sim. }
apply Forall_nil. Qed.
Definition sims8 : list b_entry :=
  [mkB "cmovnz_rro" (fun v => let (o, a, r, n, e, s) := v in Mnemonic32.i_cmovnz_rro (r 0) (r 1) (o 2))
     (fun v => let (o, a, r, n, e, s) := v in Mnemonic.i_cmovnz_rro (r 0) (r 1) (widen_op (o 2)));
   mkB "cmovnz_ro" (fun v => let (o, a, r, n, e, s) := v in Mnemonic32.i_cmovnz_ro (r 0) (o 1))
     (fun v => let (o, a, r, n, e, s) := v in Mnemonic.i_cmovnz_ro (r 0) (widen_op (o 1)));
   mkB "cmovo_rro" (fun v => let (o, a, r, n, e, s) := v in Mnemonic32.i_cmovo_rro (r 0) (r 1) (o 2))
     (fun v => let (o, a, r, n, e, s) := v in Mnemonic.i_cmovo_rro (r 0) (r 1) (widen_op (o 2)));
   mkB "cmovo_ro" (fun v => let (o, a, r, n, e, s) := v in Mnemonic32.i_cmovo_ro (r 0) (o 1))
     (fun v => let (o, a, r, n, e, s) := v in Mnemonic.i_cmovo_ro (r 0) (widen_op (o 1)));
   mkB "cmovp_rro" (fun v => let (o, a, r, n, e, s) := v in Mnemonic32.i_cmovp_rro (r 0) (r 1) (o 2))
     (fun v => let (o, a, r, n, e, s) := v in Mnemonic.i_cmovp_rro (r 0) (r 1) (widen_op (o 2)));
   mkB "cmovp_ro" (fun v => let (o, a, r, n, e, s) := v in Mnemonic32.i_cmovp_ro (r 0) (o 1))
     (fun v => let (o, a, r, n, e, s) := v in Mnemonic.i_cmovp_ro (r 0) (widen_op (o 1)));
   mkB "cmovpe_rro" (fun v => let (o, a, r, n, e, s) := v in Mnemonic32.i_cmovpe_rro (r 0) (r 1) (o 2))
     (fun v => let (o, a, r, n, e, s) := v in Mnemonic.i_cmovpe_rro (r 0) (r 1) (widen_op (o 2)));
   mkB "cmovpe_ro" (fun v => let (o, a, r, n, e, s) := v in Mnemonic32.i_cmovpe_ro (r 0) (o 1))
     (fun v => let (o, a, r, n, e, s) := v in Mnemonic.i_cmovpe_ro (r 0) (widen_op (o 1)));
   mkB "cmovpo_rro" (fun v => let (o, a, r, n, e, s) := v in Mnemonic32.i_cmovpo_rro (r 0) (r 1) (o 2))
     (fun v => let (o, a, r, n, e, s) := v in Mnemonic.i_cmovpo_rro (r 0) (r 1) (widen_op (o 2)));
   mkB "cmovpo_ro" (fun v => let (o, a, r, n, e, s) := v in Mnemonic32.i_cmovpo_ro (r 0) (o 1))
     (fun v => let (o, a, r, n, e, s) := v in Mnemonic.i_cmovpo_ro (r 0) (widen_op (o 1)));
   mkB "cmovs_rro" (fun v => let (o, a, r, n, e, s) := v in Mnemonic32.i_cmovs_rro (r 0) (r 1) (o 2))
     (fun v => let (o, a, r, n, e, s) := v in Mnemonic.i_cmovs_rro (r 0) (r 1) (widen_op (o 2)));
   mkB "cmovs_ro" (fun v => let (o, a, r, n, e, s) := v in Mnemonic32.i_cmovs_ro (r 0) (o 1))
     (fun v => let (o, a, r, n, e, s) := v in Mnemonic.i_cmovs_ro (r 0) (widen_op (o 1)));
   mkB "cmovz_rro" (fun v => let (o, a, r, n, e, s) := v in Mnemonic32.i_cmovz_rro (r 0) (r 1) (o 2))
     (fun v => let (o, a, r, n, e, s) := v in Mnemonic.i_cmovz_rro (r 0) (r 1) (widen_op (o 2)));
   mkB "cmovz_ro" (fun v => let (o, a, r, n, e, s) := v in Mnemonic32.i_cmovz_ro (r 0) (o 1))
     (fun v => let (o, a, r, n, e, s) := v in Mnemonic.i_cmovz_ro (r 0) (widen_op (o 1)));
   mkB "cmp_oi" (fun v => let (o, a, r, n, e, s) := v in Mnemonic32.i_cmp_oi (o 0) (n 1))
     (fun v => let (o, a, r, n, e, s) := v in Mnemonic.i_cmp_oi (widen_op (o 0)) (n 1));
   mkB "cmp_oo" (fun v => let (o, a, r, n, e, s) := v in Mnemonic32.i_cmp_oo (o 0) (o 1))
     (fun v => let (o, a, r, n, e, s) := v in Mnemonic.i_cmp_oo (widen_op (o 0)) (widen_op (o 1)));
   mkB "cmppd" (fun v => let (o, a, r, n, e, s) := v in Mnemonic32.i_cmppd (r 0) (o 1) (n 2))
     (fun v => let (o, a, r, n, e, s) := v in Mnemonic.i_cmppd (r 0) (widen_op (o 1)) (n 2));
   mkB "cmpeqpd" (fun v => let (o, a, r, n, e, s) := v in Mnemonic32.i_cmpeqpd (r 0) (o 1))
     (fun v => let (o, a, r, n, e, s) := v in Mnemonic.i_cmpeqpd (r 0) (widen_op (o 1)));
   mkB "cmpps" (fun v => let (o, a, r, n, e, s) := v in Mnemonic32.i_cmpps (r 0) (o 1) (n 2))
     (fun v => let (o, a, r, n, e, s) := v in Mnemonic.i_cmpps (r 0) (widen_op (o 1)) (n 2));
   mkB "cmpeqps" (fun v => let (o, a, r, n, e, s) := v in Mnemonic32.i_cmpeqps (r 0) (o 1))
     (fun v => let (o, a, r, n, e, s) := v in Mnemonic.i_cmpeqps (r 0) (widen_op (o 1)));
   mkB "cmpsd_xoi" (fun v => let (o, a, r, n, e, s) := v in Mnemonic32.i_cmpsd_xoi (r 0) (o 1) (n 2))
     (fun v => let (o, a, r, n, e, s) := v in Mnemonic.i_cmpsd_xoi (r 0) (widen_op (o 1)) (n 2));
   mkB "cmpeqsd" (fun v => let (o, a, r, n, e, s) := v in Mnemonic32.i_cmpeqsd (r 0) (o 1))
     (fun v => let (o, a, r, n, e, s) := v in Mnemonic.i_cmpeqsd (r 0) (widen_op (o 1)));
   mkB "cmpss" (fun v => let (o, a, r, n, e, s) := v in Mnemonic32.i_cmpss (r 0) (o 1) (n 2))
     (fun v => let (o, a, r, n, e, s) := v in Mnemonic.i_cmpss (r 0) (widen_op (o 1)) (n 2));
   mkB "cmpeqss" (fun v => let (o, a, r, n, e, s) := v in Mnemonic32.i_cmpeqss (r 0) (o 1))
     (fun v => let (o, a, r, n, e, s) := v in Mnemonic.i_cmpeqss (r 0) (widen_op (o 1)));
   mkB "cmplepd" (fun v => let (o, a, r, n, e, s) := v in Mnemonic32.i_cmplepd (r 0) (o 1))
     (fun v => let (o, a, r, n, e, s) := v in Mnemonic.i_cmplepd (r 0) (widen_op (o 1)))].
Lemma sims8_ok : Forall same sims8.
Proof. unfold sims8.
row. { unfold Mnemonic32.i_cmovnz_rro, Mnemonic.i_cmovnz_rro. row_sim. }
srow_. { unfold Mnemonic32.i_cmovnz_ro, Mnemonic.i_cmovnz_ro. row_sim. }
row. { unfold Mnemonic32.i_cmovo_rro, Mnemonic.i_cmovo_rro. row_sim. }
srow_. { unfold Mnemonic32.i_cmovo_ro, Mnemonic.i_cmovo_ro. row_sim. }
row. { unfold Mnemonic32.i_cmovp_rro, Mnemonic.i_cmovp_rro. row_sim. }
srow_. { unfold Mnemonic32.i_cmovp_ro, Mnemonic.i_cmovp_ro. row_sim. }
row. { unfold Mnemonic32.i_cmovpe_rro, Mnemonic.i_cmovpe_rro. row_sim. }
srow_. { unfold Mnemonic32.i_cmovpe_ro, Mnemonic.i_cmovpe_ro. row_sim. }
row. { unfold Mnemonic32.i_cmovpo_rro, Mnemonic.i_cmovpo_rro. row_sim. }
srow_. { unfold Mnemonic32.i_cmovpo_ro, Mnemonic.i_cmovpo_ro. row_sim. }
row. { unfold Mnemonic32.i_cmovs_rro, Mnemonic.i_cmovs_rro. row_sim. }
srow_. { unfold Mnemonic32.i_cmovs_ro, Mnemonic.i_cmovs_ro. row_sim. }
row. { unfold Mnemonic32.i_cmovz_rro, Mnemonic.i_cmovz_rro. row_sim. }
srow_. { unfold Mnemonic32.i_cmovz_ro, Mnemonic.i_cmovz_ro. row_sim. }
row. { unfold Mnemonic32.i_cmp_oi, Mnemonic.i_cmp_oi. row_sim. }
srow_. { unfold Mnemonic32.i_cmp_oo, Mnemonic.i_cmp_oo. row_sim. }
srow_. { unfold Mnemonic32.i_cmppd, Mnemonic.i_cmppd. row_sim. }
srow_. { unfold Mnemonic32.i_cmpeqpd, Mnemonic32.i_cmppd, Mnemonic.i_cmpeqpd, Mnemonic.i_cmppd. row_sim. }
srow_. { unfold Mnemonic32.i_cmpps, Mnemonic.i_cmpps. row_sim. }
srow_. { unfold Mnemonic32.i_cmpeqps, Mnemonic32.i_cmpps, Mnemonic.i_cmpeqps, Mnemonic.i_cmpps. row_sim. }
srow_. { unfold Mnemonic32.i_cmpsd_xoi, Mnemonic.i_cmpsd_xoi. row_sim. }
srow_. { unfold Mnemonic32.i_cmpeqsd, Mnemonic32.i_cmpsd_xoi, Mnemonic.i_cmpeqsd, Mnemonic.i_cmpsd_xoi. row_sim. }
srow_. { unfold Mnemonic32.i_cmpss, Mnemonic.i_cmpss. row_sim. }
srow_. { unfold Mnemonic32.i_cmpeqss, Mnemonic32.i_cmpss, Mnemonic.i_cmpeqss, Mnemonic.i_cmpss. row_sim. }
srow_. { unfold Mnemonic32.i_cmplepd, Mnemonic32.i_cmppd, Mnemonic.i_cmplepd, Mnemonic.i_cmppd. row_sim. }
apply Forall_nil. Qed.
Definition sims9 : list b_entry :=
  [mkB "cmpleps" (fun v => let (o, a, r, n, e, s) := v in Mnemonic32.i_cmpleps (r 0) (o 1))
     (fun v => let (o, a, r, n, e, s) := v in Mnemonic.i_cmpleps (r 0) (widen_op (o 1)));
   mkB "cmplesd" (fun v => let (o, a, r, n, e, s) := v in Mnemonic32.i_cmplesd (r 0) (o 1))
     (fun v => let (o, a, r, n, e, s) := v in Mnemonic.i_cmplesd (r 0) (widen_op (o 1)));
   mkB "cmpless" (fun v => let (o, a, r, n, e, s) := v in Mnemonic32.i_cmpless (r 0) (o 1))
     (fun v => let (o, a, r, n, e, s) := v in Mnemonic.i_cmpless (r 0) (widen_op (o 1)));
   mkB "cmpltpd" (fun v => let (o, a, r, n, e, s) := v in Mnemonic32.i_cmpltpd (r 0) (o 1))
     (fun v => let (o, a, r, n, e, s) := v in Mnemonic.i_cmpltpd (r 0) (widen_op (o 1)));
   mkB "cmpltps" (fun v => let (o, a, r, n, e, s) := v in Mnemonic32.i_cmpltps (r 0) (o 1))
     (fun v => let (o, a, r, n, e, s) := v in Mnemonic.i_cmpltps (r 0) (widen_op (o 1)));
   mkB "cmpltsd" (fun v => let (o, a, r, n, e, s) := v in Mnemonic32.i_cmpltsd (r 0) (o 1))
     (fun v => let (o, a, r, n, e, s) := v in Mnemonic.i_cmpltsd (r 0) (widen_op (o 1)));
   mkB "cmpltss" (fun v => let (o, a, r, n, e, s) := v in Mnemonic32.i_cmpltss (r 0) (o 1))
     (fun v => let (o, a, r, n, e, s) := v in Mnemonic.i_cmpltss (r 0) (widen_op (o 1)));
   mkB "cmpneqpd" (fun v => let (o, a, r, n, e, s) := v in Mnemonic32.i_cmpneqpd (r 0) (o 1))
     (fun v => let (o, a, r, n, e, s) := v in Mnemonic.i_cmpneqpd (r 0) (widen_op (o 1)));
   mkB "cmpneqps" (fun v => let (o, a, r, n, e, s) := v in Mnemonic32.i_cmpneqps (r 0) (o 1))
     (fun v => let (o, a, r, n, e, s) := v in Mnemonic.i_cmpneqps (r 0) (widen_op (o 1)));
   mkB "cmpneqsd" (fun v => let (o, a, r, n, e, s) := v in Mnemonic32.i_cmpneqsd (r 0) (o 1))
     (fun v => let (o, a, r, n, e, s) := v in Mnemonic.i_cmpneqsd (r 0) (widen_op (o 1)));
   mkB "cmpneqss" (fun v => let (o, a, r, n, e, s) := v in Mnemonic32.i_cmpneqss (r 0) (o 1))
     (fun v => let (o, a, r, n, e, s) := v in Mnemonic.i_cmpneqss (r 0) (widen_op (o 1)));
   mkB "cmpnlepd" (fun v => let (o, a, r, n, e, s) := v in Mnemonic32.i_cmpnlepd (r 0) (o 1))
     (fun v => let (o, a, r, n, e, s) := v in Mnemonic.i_cmpnlepd (r 0) (widen_op (o 1)));
   mkB "cmpnleps" (fun v => let (o, a, r, n, e, s) := v in Mnemonic32.i_cmpnleps (r 0) (o 1))
     (fun v => let (o, a, r, n, e, s) := v in Mnemonic.i_cmpnleps (r 0) (widen_op (o 1)));
   mkB "cmpnlesd" (fun v => let (o, a, r, n, e, s) := v in Mnemonic32.i_cmpnlesd (r 0) (o 1))
     (fun v => let (o, a, r, n, e, s) := v in Mnemonic.i_cmpnlesd (r 0) (widen_op (o 1)));
   mkB "cmpnless" (fun v => let (o, a, r, n, e, s) := v in Mnemonic32.i_cmpnless (r 0) (o 1))
     (fun v => let (o, a, r, n, e, s) := v in Mnemonic.i_cmpnless (r 0) (widen_op (o 1)));
   mkB "cmpnltpd" (fun v => let (o, a, r, n, e, s) := v in Mnemonic32.i_cmpnltpd (r 0) (o 1))
     (fun v => let (o, a, r, n, e, s) := v in Mnemonic.i_cmpnltpd (r 0) (widen_op (o 1)));
   mkB "cmpnltps" (fun v => let (o, a, r, n, e, s) := v in Mnemonic32.i_cmpnltps (r 0) (o 1))
     (fun v => let (o, a, r, n, e, s) := v in Mnemonic.i_cmpnltps (r 0) (widen_op (o 1)));
   mkB "cmpnltsd" (fun v => let (o, a, r, n, e, s) := v in Mnemonic32.i_cmpnltsd (r 0) (o 1))
     (fun v => let (o, a, r, n, e, s) := v in Mnemonic.i_cmpnltsd (r 0) (widen_op (o 1)));
   mkB "cmpnltss" (fun v => let (o, a, r, n, e, s) := v in Mnemonic32.i_cmpnltss (r 0) (o 1))
     (fun v => let (o, a, r, n, e, s) := v in Mnemonic.i_cmpnltss (r 0) (widen_op (o 1)));
   mkB "cmpordpd" (fun v => let (o, a, r, n, e, s) := v in Mnemonic32.i_cmpordpd (r 0) (o 1))
     (fun v => let (o, a, r, n, e, s) := v in Mnemonic.i_cmpordpd (r 0) (widen_op (o 1)));
   mkB "cmpordps" (fun v => let (o, a, r, n, e, s) := v in Mnemonic32.i_cmpordps (r 0) (o 1))
     (fun v => let (o, a, r, n, e, s) := v in Mnemonic.i_cmpordps (r 0) (widen_op (o 1)));
   mkB "cmpordsd" (fun v => let (o, a, r, n, e, s) := v in Mnemonic32.i_cmpordsd (r 0) (o 1))
     (fun v => let (o, a, r, n, e, s) := v in Mnemonic.i_cmpordsd (r 0) (widen_op (o 1)));
   mkB "cmpordss" (fun v => let (o, a, r, n, e, s) := v in Mnemonic32.i_cmpordss (r 0) (o 1))
     (fun v => let (o, a, r, n, e, s) := v in Mnemonic.i_cmpordss (r 0) (widen_op (o 1)));
   mkB "cmpunordpd" (fun v => let (o, a, r, n, e, s) := v in Mnemonic32.i_cmpunordpd (r 0) (o 1))
     (fun v => let (o, a, r, n, e, s) := v in Mnemonic.i_cmpunordpd (r 0) (widen_op (o 1)));
   mkB "cmpunordps" (fun v => let (o, a, r, n, e, s) := v in Mnemonic32.i_cmpunordps (r 0) (o 1))
     (fun v => let (o, a, r, n, e, s) := v in Mnemonic.i_cmpunordps (r 0) (widen_op (o 1)))].
Lemma sims9_ok : Forall same sims9.
Proof. unfold sims9.
srow_. { unfold Mnemonic32.i_cmpleps, Mnemonic32.i_cmpps, Mnemonic.i_cmpleps, Mnemonic.i_cmpps. row_sim. }
srow_. { unfold Mnemonic32.i_cmplesd, Mnemonic32.i_cmpsd_xoi, Mnemonic.i_cmplesd, Mnemonic.i_cmpsd_xoi. row_sim. }
srow_. { unfold Mnemonic32.i_cmpless, Mnemonic32.i_cmpss, Mnemonic.i_cmpless, Mnemonic.i_cmpss. row_sim. }
srow_. { unfold Mnemonic32.i_cmpltpd, Mnemonic32.i_cmppd, Mnemonic.i_cmpltpd, Mnemonic.i_cmppd. row_sim. }
srow_. { unfold Mnemonic32.i_cmpltps, Mnemonic32.i_cmpps, Mnemonic.i_cmpltps, Mnemonic.i_cmpps. row_sim. }
srow_. { unfold Mnemonic32.i_cmpltsd, Mnemonic32.i_cmpsd_xoi, Mnemonic.i_cmpltsd, Mnemonic.i_cmpsd_xoi. row_sim. }
srow_. { unfold Mnemonic32.i_cmpltss, Mnemonic32.i_cmpss, Mnemonic.i_cmpltss, Mnemonic.i_cmpss. row_sim. }
srow_. { unfold Mnemonic32.i_cmpneqpd, Mnemonic32.i_cmppd, Mnemonic.i_cmpneqpd, Mnemonic.i_cmppd. row_sim. }
srow_. { unfold Mnemonic32.i_cmpneqps, Mnemonic32.i_cmpps, Mnemonic.i_cmpneqps, Mnemonic.i_cmpps. row_sim. }
srow_. { unfold Mnemonic32.i_cmpneqsd, Mnemonic32.i_cmpsd_xoi, Mnemonic.i_cmpneqsd, Mnemonic.i_cmpsd_xoi. row_sim. }
srow_. { unfold Mnemonic32.i_cmpneqss, Mnemonic32.i_cmpss, Mnemonic.i_cmpneqss, Mnemonic.i_cmpss. row_sim. }
srow_. { unfold Mnemonic32.i_cmpnlepd, Mnemonic32.i_cmppd, Mnemonic.i_cmpnlepd, Mnemonic.i_cmppd. row_sim. }
srow_. { unfold Mnemonic32.i_cmpnleps, Mnemonic32.i_cmpps, Mnemonic.i_cmpnleps, Mnemonic.i_cmpps. row_sim. }
srow_. { unfold Mnemonic32.i_cmpnlesd, Mnemonic32.i_cmpsd_xoi, Mnemonic.i_cmpnlesd, Mnemonic.i_cmpsd_xoi. row_sim. }
srow_. { unfold Mnemonic32.i_cmpnless, Mnemonic32.i_cmpss, Mnemonic.i_cmpnless, Mnemonic.i_cmpss. row_sim. }
srow_. { unfold Mnemonic32.i_cmpnltpd, Mnemonic32.i_cmppd, Mnemonic.i_cmpnltpd, Mnemonic.i_cmppd. row_sim. }
srow_. { unfold Mnemonic32.i_cmpnltps, Mnemonic32.i_cmpps, Mnemonic.i_cmpnltps, Mnemonic.i_cmpps. row_sim. }
srow_. { unfold Mnemonic32.i_cmpnltsd, Mnemonic32.i_cmpsd_xoi, Mnemonic.i_cmpnltsd, Mnemonic.i_cmpsd_xoi. row_sim. }
srow_. { unfold Mnemonic32.i_cmpnltss, Mnemonic32.i_cmpss, Mnemonic.i_cmpnltss, Mnemonic.i_cmpss. row_sim. }
srow_. { unfold Mnemonic32.i_cmpordpd, Mnemonic32.i_cmppd, Mnemonic.i_cmpordpd, Mnemonic.i_cmppd. row_sim. }
srow_. { unfold Mnemonic32.i_cmpordps, Mnemonic32.i_cmpps, Mnemonic.i_cmpordps, Mnemonic.i_cmpps. row_sim. }
srow_. { unfold Mnemonic32.i_cmpordsd, Mnemonic32.i_cmpsd_xoi, Mnemonic.i_cmpordsd, Mnemonic.i_cmpsd_xoi. row_sim. }
srow_. { unfold Mnemonic32.i_cmpordss, Mnemonic32.i_cmpss, Mnemonic.i_cmpordss, Mnemonic.i_cmpss. row_sim. }
srow_. { unfold Mnemonic32.i_cmpunordpd, Mnemonic32.i_cmppd, Mnemonic.i_cmpunordpd, Mnemonic.i_cmppd. row_sim. }
srow_. { unfold Mnemonic32.i_cmpunordps, Mnemonic32.i_cmpps, Mnemonic.i_cmpunordps, Mnemonic.i_cmpps. row_sim. }
apply Forall_nil. Qed.
Definition sims10 : list b_entry :=
  [mkB "cmpunordsd" (fun v => let (o, a, r, n, e, s) := v in Mnemonic32.i_cmpunordsd (r 0) (o 1))
     (fun v => let (o, a, r, n, e, s) := v in Mnemonic.i_cmpunordsd (r 0) (widen_op (o 1)));
   mkB "cmpunordss" (fun v => let (o, a, r, n, e, s) := v in Mnemonic32.i_cmpunordss (r 0) (o 1))
     (fun v => let (o, a, r, n, e, s) := v in Mnemonic.i_cmpunordss (r 0) (widen_op (o 1)));
   mkB "cmpxchg" (fun v => let (o, a, r, n, e, s) := v in Mnemonic32.i_cmpxchg (o 0) (r 1))
     (fun v => let (o, a, r, n, e, s) := v in Mnemonic.i_cmpxchg (widen_op (o 0)) (r 1));
   mkB "cmpxchg8b" (fun v => let (o, a, r, n, e, s) := v in Mnemonic32.i_cmpxchg8b (a 0))
     (fun v => let (o, a, r, n, e, s) := v in Mnemonic.i_cmpxchg8b (widen_addr (a 0)));
   mkB "comisd" (fun v => let (o, a, r, n, e, s) := v in Mnemonic32.i_comisd (r 0) (o 1))
     (fun v => let (o, a, r, n, e, s) := v in Mnemonic.i_comisd (r 0) (widen_op (o 1)));
   mkB "comiss" (fun v => let (o, a, r, n, e, s) := v in Mnemonic32.i_comiss (r 0) (o 1))
     (fun v => let (o, a, r, n, e, s) := v in Mnemonic.i_comiss (r 0) (widen_op (o 1)));
   mkB "crc32" (fun v => let (o, a, r, n, e, s) := v in Mnemonic32.i_crc32 (r 0) (o 1))
     (fun v => let (o, a, r, n, e, s) := v in Mnemonic.i_crc32 (r 0) (widen_op (o 1)));
   mkB "ctesta_ori" (fun v => let (o, a, r, n, e, s) := v in Mnemonic32.i_ctesta_ori (o 0) (r 1) (n 2))
     (fun v => let (o, a, r, n, e, s) := v in Mnemonic.i_ctesta_ori (widen_op (o 0)) (r 1) (n 2));
   mkB "ctesta_oii" (fun v => let (o, a, r, n, e, s) := v in Mnemonic32.i_ctesta_oii (o 0) (n 1) (n 2))
     (fun v => let (o, a, r, n, e, s) := v in Mnemonic.i_ctesta_oii (widen_op (o 0)) (n 1) (n 2));
   mkB "ctestae_ori" (fun v => let (o, a, r, n, e, s) := v in Mnemonic32.i_ctestae_ori (o 0) (r 1) (n 2))
     (fun v => let (o, a, r, n, e, s) := v in Mnemonic.i_ctestae_ori (widen_op (o 0)) (r 1) (n 2));
   mkB "ctestae_oii" (fun v => let (o, a, r, n, e, s) := v in Mnemonic32.i_ctestae_oii (o 0) (n 1) (n 2))
     (fun v => let (o, a, r, n, e, s) := v in Mnemonic.i_ctestae_oii (widen_op (o 0)) (n 1) (n 2));
   mkB "ctestb_ori" (fun v => let (o, a, r, n, e, s) := v in Mnemonic32.i_ctestb_ori (o 0) (r 1) (n 2))
     (fun v => let (o, a, r, n, e, s) := v in Mnemonic.i_ctestb_ori (widen_op (o 0)) (r 1) (n 2));
   mkB "ctestb_oii" (fun v => let (o, a, r, n, e, s) := v in Mnemonic32.i_ctestb_oii (o 0) (n 1) (n 2))
     (fun v => let (o, a, r, n, e, s) := v in Mnemonic.i_ctestb_oii (widen_op (o 0)) (n 1) (n 2));
   mkB "ctestbe_ori" (fun v => let (o, a, r, n, e, s) := v in Mnemonic32.i_ctestbe_ori (o 0) (r 1) (n 2))
     (fun v => let (o, a, r, n, e, s) := v in Mnemonic.i_ctestbe_ori (widen_op (o 0)) (r 1) (n 2));
   mkB "ctestbe_oii" (fun v => let (o, a, r, n, e, s) := v in Mnemonic32.i_ctestbe_oii (o 0) (n 1) (n 2))
     (fun v => let (o, a, r, n, e, s) := v in Mnemonic.i_ctestbe_oii (widen_op (o 0)) (n 1) (n 2));
   mkB "ctestc_ori" (fun v => let (o, a, r, n, e, s) := v in Mnemonic32.i_ctestc_ori (o 0) (r 1) (n 2))
     (fun v => let (o, a, r, n, e, s) := v in Mnemonic.i_ctestc_ori (widen_op (o 0)) (r 1) (n 2));
   mkB "ctestc_oii" (fun v => let (o, a, r, n, e, s) := v in Mnemonic32.i_ctestc_oii (o 0) (n 1) (n 2))
     (fun v => let (o, a, r, n, e, s) := v in Mnemonic.i_ctestc_oii (widen_op (o 0)) (n 1) (n 2));
   mkB "cteste_ori" (fun v => let (o, a, r, n, e, s) := v in Mnemonic32.i_cteste_ori (o 0) (r 1) (n 2))
     (fun v => let (o, a, r, n, e, s) := v in Mnemonic.i_cteste_ori (widen_op (o 0)) (r 1) (n 2));
   mkB "cteste_oii" (fun v => let (o, a, r, n, e, s) := v in Mnemonic32.i_cteste_oii (o 0) (n 1) (n 2))
     (fun v => let (o, a, r, n, e, s) := v in Mnemonic.i_cteste_oii (widen_op (o 0)) (n 1) (n 2));
   mkB "ctestf_ori" (fun v => let (o, a, r, n, e, s) := v in Mnemonic32.i_ctestf_ori (o 0) (r 1) (n 2))
     (fun v => let (o, a, r, n, e, s) := v in Mnemonic.i_ctestf_ori (widen_op (o 0)) (r 1) (n 2));
   mkB "ctestf_oii" (fun v => let (o, a, r, n, e, s) := v in Mnemonic32.i_ctestf_oii (o 0) (n 1) (n 2))
     (fun v => let (o, a, r, n, e, s) := v in Mnemonic.i_ctestf_oii (widen_op (o 0)) (n 1) (n 2));
   mkB "ctestg_ori" (fun v => let (o, a, r, n, e, s) := v in Mnemonic32.i_ctestg_ori (o 0) (r 1) (n 2))
     (fun v => let (o, a, r, n, e, s) := v in Mnemonic.i_ctestg_ori (widen_op (o 0)) (r 1) (n 2));
   mkB "ctestg_oii" (fun v => let (o, a, r, n, e, s) := v in Mnemonic32.i_ctestg_oii (o 0) (n 1) (n 2))
     (fun v => let (o, a, r, n, e, s) := v in Mnemonic.i_ctestg_oii (widen_op (o 0)) (n 1) (n 2));
   mkB "ctestge_ori" (fun v => let (o, a, r, n, e, s) := v in Mnemonic32.i_ctestge_ori (o 0) (r 1) (n 2))
     (fun v => let (o, a, r, n, e, s) := v in Mnemonic.i_ctestge_ori (widen_op (o 0)) (r 1) (n 2));
   mkB "ctestge_oii" (fun v => let (o, a, r, n, e, s) := v in Mnemonic32.i_ctestge_oii (o 0) (n 1) (n 2))
     (fun v => let (o, a, r, n, e, s) := v in Mnemonic.i_ctestge_oii (widen_op (o 0)) (n 1) (n 2))].
Lemma sims10_ok : Forall same sims10.
Proof. unfold sims10.
srow_. { unfold Mnemonic32.i_cmpunordsd, Mnemonic32.i_cmpsd_xoi, Mnemonic.i_cmpunordsd, Mnemonic.i_cmpsd_xoi. row_sim. }
srow_. { unfold Mnemonic32.i_cmpunordss, Mnemonic32.i_cmpss, Mnemonic.i_cmpunordss, Mnemonic.i_cmpss. row_sim. }
srow_. { unfold Mnemonic32.i_cmpxchg, Mnemonic.i_cmpxchg. row_sim. }
row. { unfold Mnemonic32.i_cmpxchg8b, Mnemonic.i_cmpxchg8b. row_sim. }
srow_. { unfold Mnemonic32.i_comisd, Mnemonic.i_comisd. row_sim. }
srow_. { unfold Mnemonic32.i_comiss, Mnemonic.i_comiss. row_sim. }
srow_. { unfold Mnemonic32.i_crc32, Mnemonic.i_crc32. row_sim. }
row. { unfold Mnemonic32.i_ctesta_ori, Mnemonic.i_ctesta_ori. row_sim. }
row. { unfold Mnemonic32.i_ctesta_oii, Mnemonic.i_ctesta_oii. row_sim. }
row. { unfold Mnemonic32.i_ctestae_ori, Mnemonic.i_ctestae_ori. row_sim. }
row. { unfold Mnemonic32.i_ctestae_oii, Mnemonic.i_ctestae_oii. row_sim. }
row. { unfold Mnemonic32.i_ctestb_ori, Mnemonic.i_ctestb_ori. row_sim. }
row. { unfold Mnemonic32.i_ctestb_oii, Mnemonic.i_ctestb_oii. row_sim. }
row. { unfold Mnemonic32.i_ctestbe_ori, Mnemonic.i_ctestbe_ori. row_sim. }
row. { unfold Mnemonic32.i_ctestbe_oii, Mnemonic.i_ctestbe_oii. row_sim. }
row. { unfold Mnemonic32.i_ctestc_ori, Mnemonic.i_ctestc_ori. row_sim. }
row. { unfold Mnemonic32.i_ctestc_oii, Mnemonic.i_ctestc_oii. row_sim. }
row. { unfold Mnemonic32.i_cteste_ori, Mnemonic.i_cteste_ori. row_sim. }
row. { unfold Mnemonic32.i_cteste_oii, Mnemonic.i_cteste_oii. row_sim. }
row. { unfold Mnemonic32.i_ctestf_ori, Mnemonic.i_ctestf_ori. row_sim. }
row. { unfold Mnemonic32.i_ctestf_oii, Mnemonic.i_ctestf_oii. row_sim. }
row. { unfold Mnemonic32.i_ctestg_ori, Mnemonic.i_ctestg_ori. row_sim. }
row. { unfold Mnemonic32.i_ctestg_oii, Mnemonic.i_ctestg_oii. row_sim. }
row. { unfold Mnemonic32.i_ctestge_ori, Mnemonic.i_ctestge_ori. row_sim. }
row. { unfold Mnemonic32.i_ctestge_oii, Mnemonic.i_ctestge_oii. row_sim. }
apply Forall_nil. Qed.
Definition sims11 : list b_entry :=
  [mkB "ctestl_ori" (fun v => let (o, a, r, n, e, s) := v in Mnemonic32.i_ctestl_ori (o 0) (r 1) (n 2))
     (fun v => let (o, a, r, n, e, s) := v in Mnemonic.i_ctestl_ori (widen_op (o 0)) (r 1) (n 2));
   mkB "ctestl_oii" (fun v => let (o, a, r, n, e, s) := v in Mnemonic32.i_ctestl_oii (o 0) (n 1) (n 2))
     (fun v => let (o, a, r, n, e, s) := v in Mnemonic.i_ctestl_oii (widen_op (o 0)) (n 1) (n 2));
   mkB "ctestle_ori" (fun v => let (o, a, r, n, e, s) := v in Mnemonic32.i_ctestle_ori (o 0) (r 1) (n 2))
     (fun v => let (o, a, r, n, e, s) := v in Mnemonic.i_ctestle_ori (widen_op (o 0)) (r 1) (n 2));
   mkB "ctestle_oii" (fun v => let (o, a, r, n, e, s) := v in Mnemonic32.i_ctestle_oii (o 0) (n 1) (n 2))
     (fun v => let (o, a, r, n, e, s) := v in Mnemonic.i_ctestle_oii (widen_op (o 0)) (n 1) (n 2));
   mkB "ctestna_ori" (fun v => let (o, a, r, n, e, s) := v in Mnemonic32.i_ctestna_ori (o 0) (r 1) (n 2))
     (fun v => let (o, a, r, n, e, s) := v in Mnemonic.i_ctestna_ori (widen_op (o 0)) (r 1) (n 2));
   mkB "ctestna_oii" (fun v => let (o, a, r, n, e, s) := v in Mnemonic32.i_ctestna_oii (o 0) (n 1) (n 2))
     (fun v => let (o, a, r, n, e, s) := v in Mnemonic.i_ctestna_oii (widen_op (o 0)) (n 1) (n 2));
   mkB "ctestnae_ori" (fun v => let (o, a, r, n, e, s) := v in Mnemonic32.i_ctestnae_ori (o 0) (r 1) (n 2))
     (fun v => let (o, a, r, n, e, s) := v in Mnemonic.i_ctestnae_ori (widen_op (o 0)) (r 1) (n 2));
   mkB "ctestnae_oii" (fun v => let (o, a, r, n, e, s) := v in Mnemonic32.i_ctestnae_oii (o 0) (n 1) (n 2))
     (fun v => let (o, a, r, n, e, s) := v in Mnemonic.i_ctestnae_oii (widen_op (o 0)) (n 1) (n 2));
   mkB "ctestnb_ori" (fun v => let (o, a, r, n, e, s) := v in Mnemonic32.i_ctestnb_ori (o 0) (r 1) (n 2))
     (fun v => let (o, a, r, n, e, s) := v in Mnemonic.i_ctestnb_ori (widen_op (o 0)) (r 1) (n 2));
   mkB "ctestnb_oii" (fun v => let (o, a, r, n, e, s) := v in Mnemonic32.i_ctestnb_oii (o 0) (n 1) (n 2))
     (fun v => let (o, a, r, n, e, s) := v in Mnemonic.i_ctestnb_oii (widen_op (o 0)) (n 1) (n 2));
   mkB "ctestnbe_ori" (fun v => let (o, a, r, n, e, s) := v in Mnemonic32.i_ctestnbe_ori (o 0) (r 1) (n 2))
     (fun v => let (o, a, r, n, e, s) := v in Mnemonic.i_ctestnbe_ori (widen_op (o 0)) (r 1) (n 2));
   mkB "ctestnbe_oii" (fun v => let (o, a, r, n, e, s) := v in Mnemonic32.i_ctestnbe_oii (o 0) (n 1) (n 2))
     (fun v => let (o, a, r, n, e, s) := v in Mnemonic.i_ctestnbe_oii (widen_op (o 0)) (n 1) (n 2));
   mkB "ctestnc_ori" (fun v => let (o, a, r, n, e, s) := v in Mnemonic32.i_ctestnc_ori (o 0) (r 1) (n 2))
     (fun v => let (o, a, r, n, e, s) := v in Mnemonic.i_ctestnc_ori (widen_op (o 0)) (r 1) (n 2));
   mkB "ctestnc_oii" (fun v => let (o, a, r, n, e, s) := v in Mnemonic32.i_ctestnc_oii (o 0) (n 1) (n 2))
     (fun v => let (o, a, r, n, e, s) := v in Mnemonic.i_ctestnc_oii (widen_op (o 0)) (n 1) (n 2));
   mkB "ctestne_ori" (fun v => let (o, a, r, n, e, s) := v in Mnemonic32.i_ctestne_ori (o 0) (r 1) (n 2))
     (fun v => let (o, a, r, n, e, s) := v in Mnemonic.i_ctestne_ori (widen_op (o 0)) (r 1) (n 2));
   mkB "ctestne_oii" (fun v => let (o, a, r, n, e, s) := v in Mnemonic32.i_ctestne_oii (o 0) (n 1) (n 2))
     (fun v => let (o, a, r, n, e, s) := v in Mnemonic.i_ctestne_oii (widen_op (o 0)) (n 1) (n 2));
   mkB "ctestng_ori" (fun v => let (o, a, r, n, e, s) := v in Mnemonic32.i_ctestng_ori (o 0) (r 1) (n 2))
     (fun v => let (o, a, r, n, e, s) := v in Mnemonic.i_ctestng_ori (widen_op (o 0)) (r 1) (n 2));
   mkB "ctestng_oii" (fun v => let (o, a, r, n, e, s) := v in Mnemonic32.i_ctestng_oii (o 0) (n 1) (n 2))
     (fun v => let (o, a, r, n, e, s) := v in Mnemonic.i_ctestng_oii (widen_op (o 0)) (n 1) (n 2));
   mkB "ctestnge_ori" (fun v => let (o, a, r, n, e, s) := v in Mnemonic32.i_ctestnge_ori (o 0) (r 1) (n 2))
     (fun v => let (o, a, r, n, e, s) := v in Mnemonic.i_ctestnge_ori (widen_op (o 0)) (r 1) (n 2));
   mkB "ctestnge_oii" (fun v => let (o, a, r, n, e, s) := v in Mnemonic32.i_ctestnge_oii (o 0) (n 1) (n 2))
     (fun v => let (o, a, r, n, e, s) := v in Mnemonic.i_ctestnge_oii (widen_op (o 0)) (n 1) (n 2));
   mkB "ctestnl_ori" (fun v => let (o, a, r, n, e, s) := v in Mnemonic32.i_ctestnl_ori (o 0) (r 1) (n 2))
     (fun v => let (o, a, r, n, e, s) := v in Mnemonic.i_ctestnl_ori (widen_op (o 0)) (r 1) (n 2));
   mkB "ctestnl_oii" (fun v => let (o, a, r, n, e, s) := v in Mnemonic32.i_ctestnl_oii (o 0) (n 1) (n 2))
     (fun v => let (o, a, r, n, e, s) := v in Mnemonic.i_ctestnl_oii (widen_op (o 0)) (n 1) (n 2));
   mkB "ctestnle_ori" (fun v => let (o, a, r, n, e, s) := v in Mnemonic32.i_ctestnle_ori (o 0) (r 1) (n 2))
     (fun v => let (o, a, r, n, e, s) := v in Mnemonic.i_ctestnle_ori (widen_op (o 0)) (r 1) (n 2));
   mkB "ctestnle_oii" (fun v => let (o, a, r, n, e, s) := v in Mnemonic32.i_ctestnle_oii (o 0) (n 1) (n 2))
     (fun v => let (o, a, r, n, e, s) := v in Mnemonic.i_ctestnle_oii (widen_op (o 0)) (n 1) (n 2));
   mkB "ctestno_ori" (fun v => let (o, a, r, n, e, s) := v in Mnemonic32.i_ctestno_ori (o 0) (r 1) (n 2))
     (fun v => let (o, a, r, n, e, s) := v in Mnemonic.i_ctestno_ori (widen_op (o 0)) (r 1) (n 2))].
Lemma sims11_ok : Forall same sims11.
Proof. unfold sims11.
row. { unfold Mnemonic32.i_ctestl_ori, Mnemonic.i_ctestl_ori. row_sim. }
row. { unfold Mnemonic32.i_ctestl_oii, Mnemonic.i_ctestl_oii. row_sim. }
row. { unfold Mnemonic32.i_ctestle_ori, Mnemonic.i_ctestle_ori. row_sim. }
row. { unfold Mnemonic32.i_ctestle_oii, Mnemonic.i_ctestle_oii. row_sim. }
row. { unfold Mnemonic32.i_ctestna_ori, Mnemonic.i_ctestna_ori. row_sim. }
row. { unfold Mnemonic32.i_ctestna_oii, Mnemonic.i_ctestna_oii. row_sim. }
row. { unfold Mnemonic32.i_ctestnae_ori, Mnemonic.i_ctestnae_ori. row_sim. }
row. { unfold Mnemonic32.i_ctestnae_oii, Mnemonic.i_ctestnae_oii. row_sim. }
row. { unfold Mnemonic32.i_ctestnb_ori, Mnemonic.i_ctestnb_ori. row_sim. }
row. { unfold Mnemonic32.i_ctestnb_oii, Mnemonic.i_ctestnb_oii. row_sim. }
row. { unfold Mnemonic32.i_ctestnbe_ori, Mnemonic.i_ctestnbe_ori. row_sim. }
row. { unfold Mnemonic32.i_ctestnbe_oii, Mnemonic.i_ctestnbe_oii. row_sim. }
row. { unfold Mnemonic32.i_ctestnc_ori, Mnemonic.i_ctestnc_ori. row_sim. }
row. { unfold Mnemonic32.i_ctestnc_oii, Mnemonic.i_ctestnc_oii. row_sim. }
row. { unfold Mnemonic32.i_ctestne_ori, Mnemonic.i_ctestne_ori. row_sim. }
row. { unfold Mnemonic32.i_ctestne_oii, Mnemonic.i_ctestne_oii. row_sim. }
row. { unfold Mnemonic32.i_ctestng_ori, Mnemonic.i_ctestng_ori. row_sim. }
row. { unfold Mnemonic32.i_ctestng_oii, Mnemonic.i_ctestng_oii. row_sim. }
row. { unfold Mnemonic32.i_ctestnge_ori, Mnemonic.i_ctestnge_ori. row_sim. }
row. { unfold Mnemonic32.i_ctestnge_oii, Mnemonic.i_ctestnge_oii. row_sim. }
row. { unfold Mnemonic32.i_ctestnl_ori, Mnemonic.i_ctestnl_ori. row_sim. }
row. { unfold Mnemonic32.i_ctestnl_oii, Mnemonic.i_ctestnl_oii. row_sim. }
row. { unfold Mnemonic32.i_ctestnle_ori, Mnemonic.i_ctestnle_ori. row_sim. }
row. { unfold Mnemonic32.i_ctestnle_oii, Mnemonic.i_ctestnle_oii. row_sim. }
row. { unfold Mnemonic32.i_ctestno_ori, Mnemonic.i_ctestno_ori. row_sim. }
apply Forall_nil. Qed.
Definition sims12 : list b_entry :=
  [mkB "ctestno_oii" (fun v => let (o, a, r, n, e, s) := v in Mnemonic32.i_ctestno_oii (o 0) (n 1) (n 2))
     (fun v => let (o, a, r, n, e, s) := v in Mnemonic.i_ctestno_oii (widen_op (o 0)) (n 1) (n 2));
   mkB "ctestns_ori" (fun v => let (o, a, r, n, e, s) := v in Mnemonic32.i_ctestns_ori (o 0) (r 1) (n 2))
     (fun v => let (o, a, r, n, e, s) := v in Mnemonic.i_ctestns_ori (widen_op (o 0)) (r 1) (n 2));
   mkB "ctestns_oii" (fun v => let (o, a, r, n, e, s) := v in Mnemonic32.i_ctestns_oii (o 0) (n 1) (n 2))
     (fun v => let (o, a, r, n, e, s) := v in Mnemonic.i_ctestns_oii (widen_op (o 0)) (n 1) (n 2));
   mkB "ctestnz_ori" (fun v => let (o, a, r, n, e, s) := v in Mnemonic32.i_ctestnz_ori (o 0) (r 1) (n 2))
     (fun v => let (o, a, r, n, e, s) := v in Mnemonic.i_ctestnz_ori (widen_op (o 0)) (r 1) (n 2));
   mkB "ctestnz_oii" (fun v => let (o, a, r, n, e, s) := v in Mnemonic32.i_ctestnz_oii (o 0) (n 1) (n 2))
     (fun v => let (o, a, r, n, e, s) := v in Mnemonic.i_ctestnz_oii (widen_op (o 0)) (n 1) (n 2));
   mkB "ctesto_ori" (fun v => let (o, a, r, n, e, s) := v in Mnemonic32.i_ctesto_ori (o 0) (r 1) (n 2))
     (fun v => let (o, a, r, n, e, s) := v in Mnemonic.i_ctesto_ori (widen_op (o 0)) (r 1) (n 2));
   mkB "ctesto_oii" (fun v => let (o, a, r, n, e, s) := v in Mnemonic32.i_ctesto_oii (o 0) (n 1) (n 2))
     (fun v => let (o, a, r, n, e, s) := v in Mnemonic.i_ctesto_oii (widen_op (o 0)) (n 1) (n 2));
   mkB "ctests_ori" (fun v => let (o, a, r, n, e, s) := v in Mnemonic32.i_ctests_ori (o 0) (r 1) (n 2))
     (fun v => let (o, a, r, n, e, s) := v in Mnemonic.i_ctests_ori (widen_op (o 0)) (r 1) (n 2));
   mkB "ctests_oii" (fun v => let (o, a, r, n, e, s) := v in Mnemonic32.i_ctests_oii (o 0) (n 1) (n 2))
     (fun v => let (o, a, r, n, e, s) := v in Mnemonic.i_ctests_oii (widen_op (o 0)) (n 1) (n 2));
   mkB "ctestt_ori" (fun v => let (o, a, r, n, e, s) := v in Mnemonic32.i_ctestt_ori (o 0) (r 1) (n 2))
     (fun v => let (o, a, r, n, e, s) := v in Mnemonic.i_ctestt_ori (widen_op (o 0)) (r 1) (n 2));
   mkB "ctestt_oii" (fun v => let (o, a, r, n, e, s) := v in Mnemonic32.i_ctestt_oii (o 0) (n 1) (n 2))
     (fun v => let (o, a, r, n, e, s) := v in Mnemonic.i_ctestt_oii (widen_op (o 0)) (n 1) (n 2));
   mkB "ctestz_ori" (fun v => let (o, a, r, n, e, s) := v in Mnemonic32.i_ctestz_ori (o 0) (r 1) (n 2))
     (fun v => let (o, a, r, n, e, s) := v in Mnemonic.i_ctestz_ori (widen_op (o 0)) (r 1) (n 2));
   mkB "ctestz_oii" (fun v => let (o, a, r, n, e, s) := v in Mnemonic32.i_ctestz_oii (o 0) (n 1) (n 2))
     (fun v => let (o, a, r, n, e, s) := v in Mnemonic.i_ctestz_oii (widen_op (o 0)) (n 1) (n 2));
   mkB "cvtdq2pd" (fun v => let (o, a, r, n, e, s) := v in Mnemonic32.i_cvtdq2pd (r 0) (o 1))
     (fun v => let (o, a, r, n, e, s) := v in Mnemonic.i_cvtdq2pd (r 0) (widen_op (o 1)));
   mkB "cvtdq2ps" (fun v => let (o, a, r, n, e, s) := v in Mnemonic32.i_cvtdq2ps (r 0) (o 1))
     (fun v => let (o, a, r, n, e, s) := v in Mnemonic.i_cvtdq2ps (r 0) (widen_op (o 1)));
   mkB "cvtpd2dq" (fun v => let (o, a, r, n, e, s) := v in Mnemonic32.i_cvtpd2dq (r 0) (o 1))
     (fun v => let (o, a, r, n, e, s) := v in Mnemonic.i_cvtpd2dq (r 0) (widen_op (o 1)));
   mkB "cvtpd2pi" (fun v => let (o, a, r, n, e, s) := v in Mnemonic32.i_cvtpd2pi (r 0) (o 1))
     (fun v => let (o, a, r, n, e, s) := v in Mnemonic.i_cvtpd2pi (r 0) (widen_op (o 1)));
   mkB "cvtpd2ps" (fun v => let (o, a, r, n, e, s) := v in Mnemonic32.i_cvtpd2ps (r 0) (o 1))
     (fun v => let (o, a, r, n, e, s) := v in Mnemonic.i_cvtpd2ps (r 0) (widen_op (o 1)));
   mkB "cvtpi2pd" (fun v => let (o, a, r, n, e, s) := v in Mnemonic32.i_cvtpi2pd (r 0) (o 1))
     (fun v => let (o, a, r, n, e, s) := v in Mnemonic.i_cvtpi2pd (r 0) (widen_op (o 1)));
   mkB "cvtpi2ps" (fun v => let (o, a, r, n, e, s) := v in Mnemonic32.i_cvtpi2ps (r 0) (o 1))
     (fun v => let (o, a, r, n, e, s) := v in Mnemonic.i_cvtpi2ps (r 0) (widen_op (o 1)));
   mkB "cvtps2dq" (fun v => let (o, a, r, n, e, s) := v in Mnemonic32.i_cvtps2dq (r 0) (o 1))
     (fun v => let (o, a, r, n, e, s) := v in Mnemonic.i_cvtps2dq (r 0) (widen_op (o 1)));
   mkB "cvtps2pd" (fun v => let (o, a, r, n, e, s) := v in Mnemonic32.i_cvtps2pd (r 0) (o 1))
     (fun v => let (o, a, r, n, e, s) := v in Mnemonic.i_cvtps2pd (r 0) (widen_op (o 1)));
   mkB "cvtps2pi" (fun v => let (o, a, r, n, e, s) := v in Mnemonic32.i_cvtps2pi (r 0) (o 1))
     (fun v => let (o, a, r, n, e, s) := v in Mnemonic.i_cvtps2pi (r 0) (widen_op (o 1)));
   mkB "cvtsd2si" (fun v => let (o, a, r, n, e, s) := v in Mnemonic32.i_cvtsd2si (r 0) (o 1))
     (fun v => let (o, a, r, n, e, s) := v in Mnemonic.i_cvtsd2si (r 0) (widen_op (o 1)));
   mkB "cvtsd2ss" (fun v => let (o, a, r, n, e, s) := v in Mnemonic32.i_cvtsd2ss (r 0) (o 1))
     (fun v => let (o, a, r, n, e, s) := v in Mnemonic.i_cvtsd2ss (r 0) (widen_op (o 1)))].
Lemma sims12_ok : Forall same sims12.
Proof. unfold sims12.
row. { unfold Mnemonic32.i_ctestno_oii, Mnemonic.i_ctestno_oii. row_sim. }
row. { unfold Mnemonic32.i_ctestns_ori, Mnemonic.i_ctestns_ori. row_sim. }
row. { unfold Mnemonic32.i_ctestns_oii, Mnemonic.i_ctestns_oii. row_sim. }
row. { unfold Mnemonic32.i_ctestnz_ori, Mnemonic.i_ctestnz_ori. row_sim. }
row. { unfold Mnemonic32.i_ctestnz_oii, Mnemonic.i_ctestnz_oii. row_sim. }
row. { unfold Mnemonic32.i_ctesto_ori, Mnemonic.i_ctesto_ori. row_sim. }
row. { unfold Mnemonic32.i_ctesto_oii, Mnemonic.i_ctesto_oii. row_sim. }
row. { unfold Mnemonic32.i_ctests_ori, Mnemonic.i_ctests_ori. row_sim. }
row. { unfold Mnemonic32.i_ctests_oii, Mnemonic.i_ctests_oii. row_sim. }
row. { unfold Mnemonic32.i_ctestt_ori, Mnemonic.i_ctestt_ori. row_sim. }
row. { unfold Mnemonic32.i_ctestt_oii, Mnemonic.i_ctestt_oii. row_sim. }
row. { unfold Mnemonic32.i_ctestz_ori, Mnemonic.i_ctestz_ori. row_sim. }
row. { unfold Mnemonic32.i_ctestz_oii, Mnemonic.i_ctestz_oii. row_sim. }
srow_. { unfold Mnemonic32.i_cvtdq2pd, Mnemonic.i_cvtdq2pd. row_sim. }
srow_. { unfold Mnemonic32.i_cvtdq2ps, Mnemonic.i_cvtdq2ps. row_sim. }
srow_. { unfold Mnemonic32.i_cvtpd2dq, Mnemonic.i_cvtpd2dq. row_sim. }
srow_. { unfold Mnemonic32.i_cvtpd2pi, Mnemonic.i_cvtpd2pi. row_sim. }
srow_. { unfold Mnemonic32.i_cvtpd2ps, Mnemonic.i_cvtpd2ps. row_sim. }
srow_. { unfold Mnemonic32.i_cvtpi2pd, Mnemonic.i_cvtpi2pd. row_sim. }
srow_. { unfold Mnemonic32.i_cvtpi2ps, Mnemonic.i_cvtpi2ps. row_sim. }
srow_. { unfold Mnemonic32.i_cvtps2dq, Mnemonic.i_cvtps2dq. row_sim. }
srow_. { unfold Mnemonic32.i_cvtps2pd, Mnemonic.i_cvtps2pd. row_sim. }
srow_. { unfold Mnemonic32.i_cvtps2pi, Mnemonic.i_cvtps2pi. row_sim. }
srow_. { unfold Mnemonic32.i_cvtsd2si, Mnemonic.i_cvtsd2si. row_sim. }
srow_. { unfold Mnemonic32.i_cvtsd2ss, Mnemonic.i_cvtsd2ss. row_sim. }
apply Forall_nil. Qed.
Definition sims13 : list b_entry :=
  [mkB "cvtsi2sd" (fun v => let (o, a, r, n, e, s) := v in Mnemonic32.i_cvtsi2sd (r 0) (o 1))
     (fun v => let (o, a, r, n, e, s) := v in Mnemonic.i_cvtsi2sd (r 0) (widen_op (o 1)));
   mkB "cvtsi2ss" (fun v => let (o, a, r, n, e, s) := v in Mnemonic32.i_cvtsi2ss (r 0) (o 1))
     (fun v => let (o, a, r, n, e, s) := v in Mnemonic.i_cvtsi2ss (r 0) (widen_op (o 1)));
   mkB "cvtss2sd" (fun v => let (o, a, r, n, e, s) := v in Mnemonic32.i_cvtss2sd (r 0) (o 1))
     (fun v => let (o, a, r, n, e, s) := v in Mnemonic.i_cvtss2sd (r 0) (widen_op (o 1)));
   mkB "cvtss2si" (fun v => let (o, a, r, n, e, s) := v in Mnemonic32.i_cvtss2si (r 0) (o 1))
     (fun v => let (o, a, r, n, e, s) := v in Mnemonic.i_cvtss2si (r 0) (widen_op (o 1)));
   mkB "cvttpd2dq" (fun v => let (o, a, r, n, e, s) := v in Mnemonic32.i_cvttpd2dq (r 0) (o 1))
     (fun v => let (o, a, r, n, e, s) := v in Mnemonic.i_cvttpd2dq (r 0) (widen_op (o 1)));
   mkB "cvttpd2pi" (fun v => let (o, a, r, n, e, s) := v in Mnemonic32.i_cvttpd2pi (r 0) (o 1))
     (fun v => let (o, a, r, n, e, s) := v in Mnemonic.i_cvttpd2pi (r 0) (widen_op (o 1)));
   mkB "cvttps2dq" (fun v => let (o, a, r, n, e, s) := v in Mnemonic32.i_cvttps2dq (r 0) (o 1))
     (fun v => let (o, a, r, n, e, s) := v in Mnemonic.i_cvttps2dq (r 0) (widen_op (o 1)));
   mkB "cvttps2pi" (fun v => let (o, a, r, n, e, s) := v in Mnemonic32.i_cvttps2pi (r 0) (o 1))
     (fun v => let (o, a, r, n, e, s) := v in Mnemonic.i_cvttps2pi (r 0) (widen_op (o 1)));
   mkB "cvttsd2si" (fun v => let (o, a, r, n, e, s) := v in Mnemonic32.i_cvttsd2si (r 0) (o 1))
     (fun v => let (o, a, r, n, e, s) := v in Mnemonic.i_cvttsd2si (r 0) (widen_op (o 1)));
   mkB "cvttss2si" (fun v => let (o, a, r, n, e, s) := v in Mnemonic32.i_cvttss2si (r 0) (o 1))
     (fun v => let (o, a, r, n, e, s) := v in Mnemonic.i_cvttss2si (r 0) (widen_op (o 1)));
   mkB "div" (fun v => let (o, a, r, n, e, s) := v in Mnemonic32.i_div (o 0))
     (fun v => let (o, a, r, n, e, s) := v in Mnemonic.i_div (widen_op (o 0)));
   mkB "divpd" (fun v => let (o, a, r, n, e, s) := v in Mnemonic32.i_divpd (r 0) (o 1))
     (fun v => let (o, a, r, n, e, s) := v in Mnemonic.i_divpd (r 0) (widen_op (o 1)));
   mkB "divps" (fun v => let (o, a, r, n, e, s) := v in Mnemonic32.i_divps (r 0) (o 1))
     (fun v => let (o, a, r, n, e, s) := v in Mnemonic.i_divps (r 0) (widen_op (o 1)));
   mkB "divsd" (fun v => let (o, a, r, n, e, s) := v in Mnemonic32.i_divsd (r 0) (o 1))
     (fun v => let (o, a, r, n, e, s) := v in Mnemonic.i_divsd (r 0) (widen_op (o 1)));
   mkB "divss" (fun v => let (o, a, r, n, e, s) := v in Mnemonic32.i_divss (r 0) (o 1))
     (fun v => let (o, a, r, n, e, s) := v in Mnemonic.i_divss (r 0) (widen_op (o 1)));
   mkB "dppd" (fun v => let (o, a, r, n, e, s) := v in Mnemonic32.i_dppd (r 0) (o 1) (n 2))
     (fun v => let (o, a, r, n, e, s) := v in Mnemonic.i_dppd (r 0) (widen_op (o 1)) (n 2));
   mkB "dpps" (fun v => let (o, a, r, n, e, s) := v in Mnemonic32.i_dpps (r 0) (o 1) (n 2))
     (fun v => let (o, a, r, n, e, s) := v in Mnemonic.i_dpps (r 0) (widen_op (o 1)) (n 2));
   mkB "extractps" (fun v => let (o, a, r, n, e, s) := v in Mnemonic32.i_extractps (o 0) (r 1) (n 2))
     (fun v => let (o, a, r, n, e, s) := v in Mnemonic.i_extractps (widen_op (o 0)) (r 1) (n 2));
   mkB "fadd_a" (fun v => let (o, a, r, n, e, s) := v in Mnemonic32.i_fadd_a (a 0))
     (fun v => let (o, a, r, n, e, s) := v in Mnemonic.i_fadd_a (widen_addr (a 0)));
   mkB "fbld" (fun v => let (o, a, r, n, e, s) := v in Mnemonic32.i_fbld (a 0))
     (fun v => let (o, a, r, n, e, s) := v in Mnemonic.i_fbld (widen_addr (a 0)));
   mkB "fbstp" (fun v => let (o, a, r, n, e, s) := v in Mnemonic32.i_fbstp (a 0))
     (fun v => let (o, a, r, n, e, s) := v in Mnemonic.i_fbstp (widen_addr (a 0)));
   mkB "fcom_a" (fun v => let (o, a, r, n, e, s) := v in Mnemonic32.i_fcom_a (a 0))
     (fun v => let (o, a, r, n, e, s) := v in Mnemonic.i_fcom_a (widen_addr (a 0)));
   mkB "fcomp_a" (fun v => let (o, a, r, n, e, s) := v in Mnemonic32.i_fcomp_a (a 0))
     (fun v => let (o, a, r, n, e, s) := v in Mnemonic.i_fcomp_a (widen_addr (a 0)));
   mkB "fdiv_a" (fun v => let (o, a, r, n, e, s) := v in Mnemonic32.i_fdiv_a (a 0))
     (fun v => let (o, a, r, n, e, s) := v in Mnemonic.i_fdiv_a (widen_addr (a 0)));
   mkB "fdivr_a" (fun v => let (o, a, r, n, e, s) := v in Mnemonic32.i_fdivr_a (a 0))
     (fun v => let (o, a, r, n, e, s) := v in Mnemonic.i_fdivr_a (widen_addr (a 0)))].
Lemma sims13_ok : Forall same sims13.
Proof. unfold sims13.
srow_. { unfold Mnemonic32.i_cvtsi2sd, Mnemonic.i_cvtsi2sd. row_sim. }
srow_. { unfold Mnemonic32.i_cvtsi2ss, Mnemonic.i_cvtsi2ss. row_sim. }
srow_. { unfold Mnemonic32.i_cvtss2sd, Mnemonic.i_cvtss2sd. row_sim. }
srow_. { unfold Mnemonic32.i_cvtss2si, Mnemonic.i_cvtss2si. row_sim. }
srow_. { unfold Mnemonic32.i_cvttpd2dq, Mnemonic.i_cvttpd2dq. row_sim. }
srow_. { unfold Mnemonic32.i_cvttpd2pi, Mnemonic.i_cvttpd2pi. row_sim. }
srow_. { unfold Mnemonic32.i_cvttps2dq, Mnemonic.i_cvttps2dq. row_sim. }
srow_. { unfold Mnemonic32.i_cvttps2pi, Mnemonic.i_cvttps2pi. row_sim. }
srow_. { unfold Mnemonic32.i_cvttsd2si, Mnemonic.i_cvttsd2si. row_sim. }
srow_. { unfold Mnemonic32.i_cvttss2si, Mnemonic.i_cvttss2si. row_sim. }
row. { unfold Mnemonic32.i_div, Mnemonic.i_div. row_sim. }
srow_. { unfold Mnemonic32.i_divpd, Mnemonic.i_divpd. row_sim. }
srow_. { unfold Mnemonic32.i_divps, Mnemonic.i_divps. row_sim. }
srow_. { unfold Mnemonic32.i_divsd, Mnemonic.i_divsd. row_sim. }
srow_. { unfold Mnemonic32.i_divss, Mnemonic.i_divss. row_sim. }
srow_. { unfold Mnemonic32.i_dppd, Mnemonic.i_dppd. row_sim. }
srow_. { unfold Mnemonic32.i_dpps, Mnemonic.i_dpps. row_sim. }
srow_. { unfold Mnemonic32.i_extractps, Mnemonic.i_extractps. row_sim. }
row. { unfold Mnemonic32.i_fadd_a, Mnemonic.i_fadd_a. row_sim. }
row. { unfold Mnemonic32.i_fbld, Mnemonic.i_fbld. row_sim. }
row. { unfold Mnemonic32.i_fbstp, Mnemonic.i_fbstp. row_sim. }
row. { unfold Mnemonic32.i_fcom_a, Mnemonic.i_fcom_a. row_sim. }
row. { unfold Mnemonic32.i_fcomp_a, Mnemonic.i_fcomp_a. row_sim. }
row. { unfold Mnemonic32.i_fdiv_a, Mnemonic.i_fdiv_a. row_sim. }
row. { unfold Mnemonic32.i_fdivr_a, Mnemonic.i_fdivr_a. row_sim. }
apply Forall_nil. Qed.
Definition sims14 : list b_entry :=
  [mkB "fiadd" (fun v => let (o, a, r, n, e, s) := v in Mnemonic32.i_fiadd (a 0))
     (fun v => let (o, a, r, n, e, s) := v in Mnemonic.i_fiadd (widen_addr (a 0)));
   mkB "ficom" (fun v => let (o, a, r, n, e, s) := v in Mnemonic32.i_ficom (a 0))
     (fun v => let (o, a, r, n, e, s) := v in Mnemonic.i_ficom (widen_addr (a 0)));
   mkB "ficomp" (fun v => let (o, a, r, n, e, s) := v in Mnemonic32.i_ficomp (a 0))
     (fun v => let (o, a, r, n, e, s) := v in Mnemonic.i_ficomp (widen_addr (a 0)));
   mkB "fidiv" (fun v => let (o, a, r, n, e, s) := v in Mnemonic32.i_fidiv (a 0))
     (fun v => let (o, a, r, n, e, s) := v in Mnemonic.i_fidiv (widen_addr (a 0)));
   mkB "fidivr" (fun v => let (o, a, r, n, e, s) := v in Mnemonic32.i_fidivr (a 0))
     (fun v => let (o, a, r, n, e, s) := v in Mnemonic.i_fidivr (widen_addr (a 0)));
   mkB "fild" (fun v => let (o, a, r, n, e, s) := v in Mnemonic32.i_fild (a 0))
     (fun v => let (o, a, r, n, e, s) := v in Mnemonic.i_fild (widen_addr (a 0)));
   mkB "fimul" (fun v => let (o, a, r, n, e, s) := v in Mnemonic32.i_fimul (a 0))
     (fun v => let (o, a, r, n, e, s) := v in Mnemonic.i_fimul (widen_addr (a 0)));
   mkB "fist" (fun v => let (o, a, r, n, e, s) := v in Mnemonic32.i_fist (a 0))
     (fun v => let (o, a, r, n, e, s) := v in Mnemonic.i_fist (widen_addr (a 0)));
   mkB "fistp" (fun v => let (o, a, r, n, e, s) := v in Mnemonic32.i_fistp (a 0))
     (fun v => let (o, a, r, n, e, s) := v in Mnemonic.i_fistp (widen_addr (a 0)));
   mkB "fisttp" (fun v => let (o, a, r, n, e, s) := v in Mnemonic32.i_fisttp (a 0))
     (fun v => let (o, a, r, n, e, s) := v in Mnemonic.i_fisttp (widen_addr (a 0)));
   mkB "fisub" (fun v => let (o, a, r, n, e, s) := v in Mnemonic32.i_fisub (a 0))
     (fun v => let (o, a, r, n, e, s) := v in Mnemonic.i_fisub (widen_addr (a 0)));
   mkB "fisubr" (fun v => let (o, a, r, n, e, s) := v in Mnemonic32.i_fisubr (a 0))
     (fun v => let (o, a, r, n, e, s) := v in Mnemonic.i_fisubr (widen_addr (a 0)));
   mkB "fld_a" (fun v => let (o, a, r, n, e, s) := v in Mnemonic32.i_fld_a (a 0))
     (fun v => let (o, a, r, n, e, s) := v in Mnemonic.i_fld_a (widen_addr (a 0)));
   mkB "fldcw" (fun v => let (o, a, r, n, e, s) := v in Mnemonic32.i_fldcw (a 0))
     (fun v => let (o, a, r, n, e, s) := v in Mnemonic.i_fldcw (widen_addr (a 0)));
   mkB "fldenv" (fun v => let (o, a, r, n, e, s) := v in Mnemonic32.i_fldenv (a 0))
     (fun v => let (o, a, r, n, e, s) := v in Mnemonic.i_fldenv (widen_addr (a 0)));
   mkB "fmul_a" (fun v => let (o, a, r, n, e, s) := v in Mnemonic32.i_fmul_a (a 0))
     (fun v => let (o, a, r, n, e, s) := v in Mnemonic.i_fmul_a (widen_addr (a 0)));
   mkB "fnsave" (fun v => let (o, a, r, n, e, s) := v in Mnemonic32.i_fnsave (a 0))
     (fun v => let (o, a, r, n, e, s) := v in Mnemonic.i_fnsave (widen_addr (a 0)));
   mkB "fnstcw" (fun v => let (o, a, r, n, e, s) := v in Mnemonic32.i_fnstcw (a 0))
     (fun v => let (o, a, r, n, e, s) := v in Mnemonic.i_fnstcw (widen_addr (a 0)));
   mkB "fnstenv" (fun v => let (o, a, r, n, e, s) := v in Mnemonic32.i_fnstenv (a 0))
     (fun v => let (o, a, r, n, e, s) := v in Mnemonic.i_fnstenv (widen_addr (a 0)));
   mkB "fnstsw_a" (fun v => let (o, a, r, n, e, s) := v in Mnemonic32.i_fnstsw_a (a 0))
     (fun v => let (o, a, r, n, e, s) := v in Mnemonic.i_fnstsw_a (widen_addr (a 0)));
   mkB "frstor" (fun v => let (o, a, r, n, e, s) := v in Mnemonic32.i_frstor (a 0))
     (fun v => let (o, a, r, n, e, s) := v in Mnemonic.i_frstor (widen_addr (a 0)));
   mkB "fsave" (fun v => let (o, a, r, n, e, s) := v in Mnemonic32.i_fsave (a 0))
     (fun v => let (o, a, r, n, e, s) := v in Mnemonic.i_fsave (widen_addr (a 0)));
   mkB "fst_a" (fun v => let (o, a, r, n, e, s) := v in Mnemonic32.i_fst_a (a 0))
     (fun v => let (o, a, r, n, e, s) := v in Mnemonic.i_fst_a (widen_addr (a 0)));
   mkB "fstcw" (fun v => let (o, a, r, n, e, s) := v in Mnemonic32.i_fstcw (a 0))
     (fun v => let (o, a, r, n, e, s) := v in Mnemonic.i_fstcw (widen_addr (a 0)));
   mkB "fstenv" (fun v => let (o, a, r, n, e, s) := v in Mnemonic32.i_fstenv (a 0))
     (fun v => let (o, a, r, n, e, s) := v in Mnemonic.i_fstenv (widen_addr (a 0)))].
Lemma sims14_ok : Forall same sims14.
Proof. unfold sims14.
row. { unfold Mnemonic32.i_fiadd, Mnemonic.i_fiadd. row_sim. }
row. { unfold Mnemonic32.i_ficom, Mnemonic.i_ficom. row_sim. }
row. { unfold Mnemonic32.i_ficomp, Mnemonic.i_ficomp. row_sim. }
row. { unfold Mnemonic32.i_fidiv, Mnemonic.i_fidiv. row_sim. }
row. { unfold Mnemonic32.i_fidivr, Mnemonic.i_fidivr. row_sim. }
row. { unfold Mnemonic32.i_fild, Mnemonic.i_fild. row_sim. }
row. { unfold Mnemonic32.i_fimul, Mnemonic.i_fimul. row_sim. }
row. { unfold Mnemonic32.i_fist, Mnemonic.i_fist. row_sim. }
row. { unfold Mnemonic32.i_fistp, Mnemonic.i_fistp. row_sim. }
row. { unfold Mnemonic32.i_fisttp, Mnemonic.i_fisttp. row_sim. }
row. { unfold Mnemonic32.i_fisub, Mnemonic.i_fisub. row_sim. }
row. { unfold Mnemonic32.i_fisubr, Mnemonic.i_fisubr. row_sim. }
row. { unfold Mnemonic32.i_fld_a, Mnemonic.i_fld_a. row_sim. }
row. { unfold Mnemonic32.i_fldcw, Mnemonic.i_fldcw. row_sim. }
row. { unfold Mnemonic32.i_fldenv, Mnemonic.i_fldenv. row_sim. }
row. { unfold Mnemonic32.i_fmul_a, Mnemonic.i_fmul_a. row_sim. }
row. { unfold Mnemonic32.i_fnsave, Mnemonic.i_fnsave. row_sim. }
row. { unfold Mnemonic32.i_fnstcw, Mnemonic.i_fnstcw. row_sim. }
row. { unfold Mnemonic32.i_fnstenv, Mnemonic.i_fnstenv. row_sim. }
row. { unfold Mnemonic32.i_fnstsw_a, Mnemonic.i_fnstsw_a. row_sim. }
row. { unfold Mnemonic32.i_frstor, Mnemonic.i_frstor. row_sim. }
row. { unfold Mnemonic32.i_fsave, Mnemonic.i_fsave. row_sim. }
row. { unfold Mnemonic32.i_fst_a, Mnemonic.i_fst_a. row_sim. }
row. { unfold Mnemonic32.i_fstcw, Mnemonic.i_fstcw. row_sim. }
row. { unfold Mnemonic32.i_fstenv, Mnemonic.i_fstenv. row_sim. }
apply Forall_nil. Qed.
Definition sims15 : list b_entry :=
  [mkB "fstp_a" (fun v => let (o, a, r, n, e, s) := v in Mnemonic32.i_fstp_a (a 0))
     (fun v => let (o, a, r, n, e, s) := v in Mnemonic.i_fstp_a (widen_addr (a 0)));
   mkB "fstsw_a" (fun v => let (o, a, r, n, e, s) := v in Mnemonic32.i_fstsw_a (a 0))
     (fun v => let (o, a, r, n, e, s) := v in Mnemonic.i_fstsw_a (widen_addr (a 0)));
   mkB "fsub_a" (fun v => let (o, a, r, n, e, s) := v in Mnemonic32.i_fsub_a (a 0))
     (fun v => let (o, a, r, n, e, s) := v in Mnemonic.i_fsub_a (widen_addr (a 0)));
   mkB "fsubr_a" (fun v => let (o, a, r, n, e, s) := v in Mnemonic32.i_fsubr_a (a 0))
     (fun v => let (o, a, r, n, e, s) := v in Mnemonic.i_fsubr_a (widen_addr (a 0)));
   mkB "fxrstor" (fun v => let (o, a, r, n, e, s) := v in Mnemonic32.i_fxrstor (a 0))
     (fun v => let (o, a, r, n, e, s) := v in Mnemonic.i_fxrstor (widen_addr (a 0)));
   mkB "gf2p8affineinvqb" (fun v => let (o, a, r, n, e, s) := v in Mnemonic32.i_gf2p8affineinvqb (r 0) (o 1) (n 2))
     (fun v => let (o, a, r, n, e, s) := v in Mnemonic.i_gf2p8affineinvqb (r 0) (widen_op (o 1)) (n 2));
   mkB "gf2p8affineqb" (fun v => let (o, a, r, n, e, s) := v in Mnemonic32.i_gf2p8affineqb (r 0) (o 1) (n 2))
     (fun v => let (o, a, r, n, e, s) := v in Mnemonic.i_gf2p8affineqb (r 0) (widen_op (o 1)) (n 2));
   mkB "gf2p8mulb" (fun v => let (o, a, r, n, e, s) := v in Mnemonic32.i_gf2p8mulb (r 0) (o 1))
     (fun v => let (o, a, r, n, e, s) := v in Mnemonic.i_gf2p8mulb (r 0) (widen_op (o 1)));
   mkB "haddpd" (fun v => let (o, a, r, n, e, s) := v in Mnemonic32.i_haddpd (r 0) (o 1))
     (fun v => let (o, a, r, n, e, s) := v in Mnemonic.i_haddpd (r 0) (widen_op (o 1)));
   mkB "haddps" (fun v => let (o, a, r, n, e, s) := v in Mnemonic32.i_haddps (r 0) (o 1))
     (fun v => let (o, a, r, n, e, s) := v in Mnemonic.i_haddps (r 0) (widen_op (o 1)));
   mkB "hsubpd" (fun v => let (o, a, r, n, e, s) := v in Mnemonic32.i_hsubpd (r 0) (o 1))
     (fun v => let (o, a, r, n, e, s) := v in Mnemonic.i_hsubpd (r 0) (widen_op (o 1)));
   mkB "hsubps" (fun v => let (o, a, r, n, e, s) := v in Mnemonic32.i_hsubps (r 0) (o 1))
     (fun v => let (o, a, r, n, e, s) := v in Mnemonic.i_hsubps (r 0) (widen_op (o 1)));
   mkB "idiv" (fun v => let (o, a, r, n, e, s) := v in Mnemonic32.i_idiv (o 0))
     (fun v => let (o, a, r, n, e, s) := v in Mnemonic.i_idiv (widen_op (o 0)));
   mkB "imul_o" (fun v => let (o, a, r, n, e, s) := v in Mnemonic32.i_imul_o (o 0))
     (fun v => let (o, a, r, n, e, s) := v in Mnemonic.i_imul_o (widen_op (o 0)));
   mkB "imul_rro" (fun v => let (o, a, r, n, e, s) := v in Mnemonic32.i_imul_rro (r 0) (r 1) (o 2))
     (fun v => let (o, a, r, n, e, s) := v in Mnemonic.i_imul_rro (r 0) (r 1) (widen_op (o 2)));
   mkB "imul_ro" (fun v => let (o, a, r, n, e, s) := v in Mnemonic32.i_imul_ro (r 0) (o 1))
     (fun v => let (o, a, r, n, e, s) := v in Mnemonic.i_imul_ro (r 0) (widen_op (o 1)));
   mkB "insertps" (fun v => let (o, a, r, n, e, s) := v in Mnemonic32.i_insertps (r 0) (o 1) (n 2))
     (fun v => let (o, a, r, n, e, s) := v in Mnemonic.i_insertps (r 0) (widen_op (o 1)) (n 2));
   mkB "lddqu" (fun v => let (o, a, r, n, e, s) := v in Mnemonic32.i_lddqu (r 0) (a 1))
     (fun v => let (o, a, r, n, e, s) := v in Mnemonic.i_lddqu (r 0) (widen_addr (a 1)));
   mkB "ldmxcsr" (fun v => let (o, a, r, n, e, s) := v in Mnemonic32.i_ldmxcsr (a 0))
     (fun v => let (o, a, r, n, e, s) := v in Mnemonic.i_ldmxcsr (widen_addr (a 0)));
   mkB "lfs" (fun v => let (o, a, r, n, e, s) := v in Mnemonic32.i_lfs (r 0) (a 1))
     (fun v => let (o, a, r, n, e, s) := v in Mnemonic.i_lfs (r 0) (widen_addr (a 1)));
   mkB "lgs" (fun v => let (o, a, r, n, e, s) := v in Mnemonic32.i_lgs (r 0) (a 1))
     (fun v => let (o, a, r, n, e, s) := v in Mnemonic.i_lgs (r 0) (widen_addr (a 1)));
   mkB "lss" (fun v => let (o, a, r, n, e, s) := v in Mnemonic32.i_lss (r 0) (a 1))
     (fun v => let (o, a, r, n, e, s) := v in Mnemonic.i_lss (r 0) (widen_addr (a 1)));
   mkB "lzcnt" (fun v => let (o, a, r, n, e, s) := v in Mnemonic32.i_lzcnt (r 0) (o 1))
     (fun v => let (o, a, r, n, e, s) := v in Mnemonic.i_lzcnt (r 0) (widen_op (o 1)));
   mkB "maskmovdqu" (fun v => let (o, a, r, n, e, s) := v in Mnemonic32.i_maskmovdqu (r 0) (r 1))
     (fun v => let (o, a, r, n, e, s) := v in Mnemonic.i_maskmovdqu (r 0) (r 1));
   mkB "maskmovq" (fun v => let (o, a, r, n, e, s) := v in Mnemonic32.i_maskmovq (r 0) (r 1))
     (fun v => let (o, a, r, n, e, s) := v in Mnemonic.i_maskmovq (r 0) (r 1))].
Lemma sims15_ok : Forall same sims15.
Proof. unfold sims15.
row. { unfold Mnemonic32.i_fstp_a, Mnemonic.i_fstp_a. row_sim. }
row. { unfold Mnemonic32.i_fstsw_a, Mnemonic.i_fstsw_a. row_sim. }
row. { unfold Mnemonic32.i_fsub_a, Mnemonic.i_fsub_a. row_sim. }
row. { unfold Mnemonic32.i_fsubr_a, Mnemonic.i_fsubr_a. row_sim. }
row. { unfold Mnemonic32.i_fxrstor, Mnemonic.i_fxrstor. row_sim. }
srow_. { unfold Mnemonic32.i_gf2p8affineinvqb, Mnemonic.i_gf2p8affineinvqb. row_sim. }
srow_. { unfold Mnemonic32.i_gf2p8affineqb, Mnemonic.i_gf2p8affineqb. row_sim. }
srow_. { unfold Mnemonic32.i_gf2p8mulb, Mnemonic.i_gf2p8mulb. row_sim. }
srow_. { unfold Mnemonic32.i_haddpd, Mnemonic.i_haddpd. row_sim. }
srow_. { unfold Mnemonic32.i_haddps, Mnemonic.i_haddps. row_sim. }
srow_. { unfold Mnemonic32.i_hsubpd, Mnemonic.i_hsubpd. row_sim. }
srow_. { unfold Mnemonic32.i_hsubps, Mnemonic.i_hsubps. row_sim. }
row. { unfold Mnemonic32.i_idiv, Mnemonic.i_idiv. row_sim. }
row. { unfold Mnemonic32.i_imul_o, Mnemonic.i_imul_o. row_sim. }
row. { unfold Mnemonic32.i_imul_rro, Mnemonic.i_imul_rro. row_sim. }
srow_. { unfold Mnemonic32.i_imul_ro, Mnemonic.i_imul_ro. row_sim. }
srow_. { unfold Mnemonic32.i_insertps, Mnemonic.i_insertps. row_sim. }
srow_. { unfold Mnemonic32.i_lddqu, Mnemonic.i_lddqu. row_sim. }
row. { unfold Mnemonic32.i_ldmxcsr, Mnemonic.i_ldmxcsr. row_sim. }
row. { unfold Mnemonic32.i_lfs, Mnemonic.i_lfs. row_sim. }
row. { unfold Mnemonic32.i_lgs, Mnemonic.i_lgs. row_sim. }
row. { unfold Mnemonic32.i_lss, Mnemonic.i_lss. row_sim. }
srow_. { unfold Mnemonic32.i_lzcnt, Mnemonic.i_lzcnt. row_sim. }
srow_. { unfold Mnemonic32.i_maskmovdqu, Mnemonic.i_maskmovdqu. row_sim. }
srow_. { unfold Mnemonic32.i_maskmovq, Mnemonic.i_maskmovq. row_sim. }
apply Forall_nil. Qed.
Definition sims16 : list b_entry :=
  [mkB "maxpd" (fun v => let (o, a, r, n, e, s) := v in Mnemonic32.i_maxpd (r 0) (o 1))
     (fun v => let (o, a, r, n, e, s) := v in Mnemonic.i_maxpd (r 0) (widen_op (o 1)));
   mkB "maxps" (fun v => let (o, a, r, n, e, s) := v in Mnemonic32.i_maxps (r 0) (o 1))
     (fun v => let (o, a, r, n, e, s) := v in Mnemonic.i_maxps (r 0) (widen_op (o 1)));
   mkB "maxsd" (fun v => let (o, a, r, n, e, s) := v in Mnemonic32.i_maxsd (r 0) (o 1))
     (fun v => let (o, a, r, n, e, s) := v in Mnemonic.i_maxsd (r 0) (widen_op (o 1)));
   mkB "maxss" (fun v => let (o, a, r, n, e, s) := v in Mnemonic32.i_maxss (r 0) (o 1))
     (fun v => let (o, a, r, n, e, s) := v in Mnemonic.i_maxss (r 0) (widen_op (o 1)));
   mkB "minpd" (fun v => let (o, a, r, n, e, s) := v in Mnemonic32.i_minpd (r 0) (o 1))
     (fun v => let (o, a, r, n, e, s) := v in Mnemonic.i_minpd (r 0) (widen_op (o 1)));
   mkB "minps" (fun v => let (o, a, r, n, e, s) := v in Mnemonic32.i_minps (r 0) (o 1))
     (fun v => let (o, a, r, n, e, s) := v in Mnemonic.i_minps (r 0) (widen_op (o 1)));
   mkB "minsd" (fun v => let (o, a, r, n, e, s) := v in Mnemonic32.i_minsd (r 0) (o 1))
     (fun v => let (o, a, r, n, e, s) := v in Mnemonic.i_minsd (r 0) (widen_op (o 1)));
   mkB "minss" (fun v => let (o, a, r, n, e, s) := v in Mnemonic32.i_minss (r 0) (o 1))
     (fun v => let (o, a, r, n, e, s) := v in Mnemonic.i_minss (r 0) (widen_op (o 1)));
   mkB "movapd_ax" (fun v => let (o, a, r, n, e, s) := v in Mnemonic32.i_movapd_ax (a 0) (r 1))
     (fun v => let (o, a, r, n, e, s) := v in Mnemonic.i_movapd_ax (widen_addr (a 0)) (r 1));
   mkB "movapd_xo" (fun v => let (o, a, r, n, e, s) := v in Mnemonic32.i_movapd_xo (r 0) (o 1))
     (fun v => let (o, a, r, n, e, s) := v in Mnemonic.i_movapd_xo (r 0) (widen_op (o 1)));
   mkB "movaps_ax" (fun v => let (o, a, r, n, e, s) := v in Mnemonic32.i_movaps_ax (a 0) (r 1))
     (fun v => let (o, a, r, n, e, s) := v in Mnemonic.i_movaps_ax (widen_addr (a 0)) (r 1));
   mkB "movaps_xo" (fun v => let (o, a, r, n, e, s) := v in Mnemonic32.i_movaps_xo (r 0) (o 1))
     (fun v => let (o, a, r, n, e, s) := v in Mnemonic.i_movaps_xo (r 0) (widen_op (o 1)));
   mkB "movbe_ar" (fun v => let (o, a, r, n, e, s) := v in Mnemonic32.i_movbe_ar (a 0) (r 1))
     (fun v => let (o, a, r, n, e, s) := v in Mnemonic.i_movbe_ar (widen_addr (a 0)) (r 1));
   mkB "movbe_ra" (fun v => let (o, a, r, n, e, s) := v in Mnemonic32.i_movbe_ra (r 0) (a 1))
     (fun v => let (o, a, r, n, e, s) := v in Mnemonic.i_movbe_ra (r 0) (widen_addr (a 1)));
   mkB "movd_mo" (fun v => let (o, a, r, n, e, s) := v in Mnemonic32.i_movd_mo (r 0) (o 1))
     (fun v => let (o, a, r, n, e, s) := v in Mnemonic.i_movd_mo (r 0) (widen_op (o 1)));
   mkB "movd_om" (fun v => let (o, a, r, n, e, s) := v in Mnemonic32.i_movd_om (o 0) (r 1))
     (fun v => let (o, a, r, n, e, s) := v in Mnemonic.i_movd_om (widen_op (o 0)) (r 1));
   mkB "movddup" (fun v => let (o, a, r, n, e, s) := v in Mnemonic32.i_movddup (r 0) (o 1))
     (fun v => let (o, a, r, n, e, s) := v in Mnemonic.i_movddup (r 0) (widen_op (o 1)));
   mkB "movdir64b" (fun v => let (o, a, r, n, e, s) := v in Mnemonic32.i_movdir64b (r 0) (a 1))
     (fun v => let (o, a, r, n, e, s) := v in Mnemonic.i_movdir64b (r 0) (widen_addr (a 1)));
   mkB "movdiri" (fun v => let (o, a, r, n, e, s) := v in Mnemonic32.i_movdiri (a 0) (r 1))
     (fun v => let (o, a, r, n, e, s) := v in Mnemonic.i_movdiri (widen_addr (a 0)) (r 1));
   mkB "movdq2q" (fun v => let (o, a, r, n, e, s) := v in Mnemonic32.i_movdq2q (r 0) (r 1))
     (fun v => let (o, a, r, n, e, s) := v in Mnemonic.i_movdq2q (r 0) (r 1));
   mkB "movdqa_ax" (fun v => let (o, a, r, n, e, s) := v in Mnemonic32.i_movdqa_ax (a 0) (r 1))
     (fun v => let (o, a, r, n, e, s) := v in Mnemonic.i_movdqa_ax (widen_addr (a 0)) (r 1));
   mkB "movdqa_xo" (fun v => let (o, a, r, n, e, s) := v in Mnemonic32.i_movdqa_xo (r 0) (o 1))
     (fun v => let (o, a, r, n, e, s) := v in Mnemonic.i_movdqa_xo (r 0) (widen_op (o 1)));
   mkB "movdqu_ax" (fun v => let (o, a, r, n, e, s) := v in Mnemonic32.i_movdqu_ax (a 0) (r 1))
     (fun v => let (o, a, r, n, e, s) := v in Mnemonic.i_movdqu_ax (widen_addr (a 0)) (r 1));
   mkB "movdqu_xo" (fun v => let (o, a, r, n, e, s) := v in Mnemonic32.i_movdqu_xo (r 0) (o 1))
     (fun v => let (o, a, r, n, e, s) := v in Mnemonic.i_movdqu_xo (r 0) (widen_op (o 1)));
   mkB "movhlps" (fun v => let (o, a, r, n, e, s) := v in Mnemonic32.i_movhlps (r 0) (r 1))
     (fun v => let (o, a, r, n, e, s) := v in Mnemonic.i_movhlps (r 0) (r 1))].
Lemma sims16_ok : Forall same sims16.
Proof. unfold sims16.
srow_. { unfold Mnemonic32.i_maxpd, Mnemonic.i_maxpd. row_sim. }
srow_. { unfold Mnemonic32.i_maxps, Mnemonic.i_maxps. row_sim. }
srow_. { unfold Mnemonic32.i_maxsd, Mnemonic.i_maxsd. row_sim. }
srow_. { unfold Mnemonic32.i_maxss, Mnemonic.i_maxss. row_sim. }
srow_. { unfold Mnemonic32.i_minpd, Mnemonic.i_minpd. row_sim. }
srow_. { unfold Mnemonic32.i_minps, Mnemonic.i_minps. row_sim. }
srow_. { unfold Mnemonic32.i_minsd, Mnemonic.i_minsd. row_sim. }
srow_. { unfold Mnemonic32.i_minss, Mnemonic.i_minss. row_sim. }
srow_. { unfold Mnemonic32.i_movapd_ax, Mnemonic.i_movapd_ax. row_sim. }
srow_. { unfold Mnemonic32.i_movapd_xo, Mnemonic.i_movapd_xo. row_sim. }
srow_. { unfold Mnemonic32.i_movaps_ax, Mnemonic.i_movaps_ax. row_sim. }
srow_. { unfold Mnemonic32.i_movaps_xo, Mnemonic.i_movaps_xo. row_sim. }
srow_. { unfold Mnemonic32.i_movbe_ar, Mnemonic.i_movbe_ar. row_sim. }
srow_. { unfold Mnemonic32.i_movbe_ra, Mnemonic.i_movbe_ra. row_sim. }
srow_. { unfold Mnemonic32.i_movd_mo, Mnemonic.i_movd_mo. row_sim. }
srow_. { unfold Mnemonic32.i_movd_om, Mnemonic.i_movd_om. row_sim. }
srow_. { unfold Mnemonic32.i_movddup, Mnemonic.i_movddup. row_sim. }
row. { unfold Mnemonic32.i_movdir64b, Mnemonic.i_movdir64b. row_sim. }
srow_. { unfold Mnemonic32.i_movdiri, Mnemonic.i_movdiri. row_sim. }
srow_. { unfold Mnemonic32.i_movdq2q, Mnemonic.i_movdq2q. row_sim. }
srow_. { unfold Mnemonic32.i_movdqa_ax, Mnemonic.i_movdqa_ax. row_sim. }
srow_. { unfold Mnemonic32.i_movdqa_xo, Mnemonic.i_movdqa_xo. row_sim. }
srow_. { unfold Mnemonic32.i_movdqu_ax, Mnemonic.i_movdqu_ax. row_sim. }
srow_. { unfold Mnemonic32.i_movdqu_xo, Mnemonic.i_movdqu_xo. row_sim. }
srow_. { unfold Mnemonic32.i_movhlps, Mnemonic.i_movhlps. row_sim. }
apply Forall_nil. Qed.
Definition sims17 : list b_entry :=
  [mkB "movhpd" (fun v => let (o, a, r, n, e, s) := v in Mnemonic32.i_movhpd (o 0) (o 1))
     (fun v => let (o, a, r, n, e, s) := v in Mnemonic.i_movhpd (widen_op (o 0)) (widen_op (o 1)));
   mkB "movhps" (fun v => let (o, a, r, n, e, s) := v in Mnemonic32.i_movhps (o 0) (o 1))
     (fun v => let (o, a, r, n, e, s) := v in Mnemonic.i_movhps (widen_op (o 0)) (widen_op (o 1)));
   mkB "movlhps" (fun v => let (o, a, r, n, e, s) := v in Mnemonic32.i_movlhps (r 0) (r 1))
     (fun v => let (o, a, r, n, e, s) := v in Mnemonic.i_movlhps (r 0) (r 1));
   mkB "movlpd" (fun v => let (o, a, r, n, e, s) := v in Mnemonic32.i_movlpd (o 0) (o 1))
     (fun v => let (o, a, r, n, e, s) := v in Mnemonic.i_movlpd (widen_op (o 0)) (widen_op (o 1)));
   mkB "movlps" (fun v => let (o, a, r, n, e, s) := v in Mnemonic32.i_movlps (o 0) (o 1))
     (fun v => let (o, a, r, n, e, s) := v in Mnemonic.i_movlps (widen_op (o 0)) (widen_op (o 1)));
   mkB "movmskps" (fun v => let (o, a, r, n, e, s) := v in Mnemonic32.i_movmskps (r 0) (r 1))
     (fun v => let (o, a, r, n, e, s) := v in Mnemonic.i_movmskps (r 0) (r 1));
   mkB "movmskpd" (fun v => let (o, a, r, n, e, s) := v in Mnemonic32.i_movmskpd (r 0) (r 1))
     (fun v => let (o, a, r, n, e, s) := v in Mnemonic.i_movmskpd (r 0) (r 1));
   mkB "movntdq" (fun v => let (o, a, r, n, e, s) := v in Mnemonic32.i_movntdq (a 0) (r 1))
     (fun v => let (o, a, r, n, e, s) := v in Mnemonic.i_movntdq (widen_addr (a 0)) (r 1));
   mkB "movntdqa" (fun v => let (o, a, r, n, e, s) := v in Mnemonic32.i_movntdqa (r 0) (a 1))
     (fun v => let (o, a, r, n, e, s) := v in Mnemonic.i_movntdqa (r 0) (widen_addr (a 1)));
   mkB "movnti" (fun v => let (o, a, r, n, e, s) := v in Mnemonic32.i_movnti (a 0) (r 1))
     (fun v => let (o, a, r, n, e, s) := v in Mnemonic.i_movnti (widen_addr (a 0)) (r 1));
   mkB "movntpd" (fun v => let (o, a, r, n, e, s) := v in Mnemonic32.i_movntpd (a 0) (r 1))
     (fun v => let (o, a, r, n, e, s) := v in Mnemonic.i_movntpd (widen_addr (a 0)) (r 1));
   mkB "movntps" (fun v => let (o, a, r, n, e, s) := v in Mnemonic32.i_movntps (a 0) (r 1))
     (fun v => let (o, a, r, n, e, s) := v in Mnemonic.i_movntps (widen_addr (a 0)) (r 1));
   mkB "movntq" (fun v => let (o, a, r, n, e, s) := v in Mnemonic32.i_movntq (a 0) (r 1))
     (fun v => let (o, a, r, n, e, s) := v in Mnemonic.i_movntq (widen_addr (a 0)) (r 1));
   mkB "movq_am" (fun v => let (o, a, r, n, e, s) := v in Mnemonic32.i_movq_am (a 0) (r 1))
     (fun v => let (o, a, r, n, e, s) := v in Mnemonic.i_movq_am (widen_addr (a 0)) (r 1));
   mkB "movq_mo" (fun v => let (o, a, r, n, e, s) := v in Mnemonic32.i_movq_mo (r 0) (o 1))
     (fun v => let (o, a, r, n, e, s) := v in Mnemonic.i_movq_mo (r 0) (widen_op (o 1)));
   mkB "movq2dq" (fun v => let (o, a, r, n, e, s) := v in Mnemonic32.i_movq2dq (r 0) (r 1))
     (fun v => let (o, a, r, n, e, s) := v in Mnemonic.i_movq2dq (r 0) (r 1));
   mkB "movsd_ax" (fun v => let (o, a, r, n, e, s) := v in Mnemonic32.i_movsd_ax (a 0) (r 1))
     (fun v => let (o, a, r, n, e, s) := v in Mnemonic.i_movsd_ax (widen_addr (a 0)) (r 1));
   mkB "movsd_xo" (fun v => let (o, a, r, n, e, s) := v in Mnemonic32.i_movsd_xo (r 0) (o 1))
     (fun v => let (o, a, r, n, e, s) := v in Mnemonic.i_movsd_xo (r 0) (widen_op (o 1)));
   mkB "movshdup" (fun v => let (o, a, r, n, e, s) := v in Mnemonic32.i_movshdup (r 0) (o 1))
     (fun v => let (o, a, r, n, e, s) := v in Mnemonic.i_movshdup (r 0) (widen_op (o 1)));
   mkB "movsldup" (fun v => let (o, a, r, n, e, s) := v in Mnemonic32.i_movsldup (r 0) (o 1))
     (fun v => let (o, a, r, n, e, s) := v in Mnemonic.i_movsldup (r 0) (widen_op (o 1)));
   mkB "movss_ax" (fun v => let (o, a, r, n, e, s) := v in Mnemonic32.i_movss_ax (a 0) (r 1))
     (fun v => let (o, a, r, n, e, s) := v in Mnemonic.i_movss_ax (widen_addr (a 0)) (r 1));
   mkB "movss_xo" (fun v => let (o, a, r, n, e, s) := v in Mnemonic32.i_movss_xo (r 0) (o 1))
     (fun v => let (o, a, r, n, e, s) := v in Mnemonic.i_movss_xo (r 0) (widen_op (o 1)));
   mkB "movsx" (fun v => let (o, a, r, n, e, s) := v in Mnemonic32.i_movsx (r 0) (o 1))
     (fun v => let (o, a, r, n, e, s) := v in Mnemonic.i_movsx (r 0) (widen_op (o 1)));
   mkB "movupd_ax" (fun v => let (o, a, r, n, e, s) := v in Mnemonic32.i_movupd_ax (a 0) (r 1))
     (fun v => let (o, a, r, n, e, s) := v in Mnemonic.i_movupd_ax (widen_addr (a 0)) (r 1));
   mkB "movupd_xo" (fun v => let (o, a, r, n, e, s) := v in Mnemonic32.i_movupd_xo (r 0) (o 1))
     (fun v => let (o, a, r, n, e, s) := v in Mnemonic.i_movupd_xo (r 0) (widen_op (o 1)))].
Lemma sims17_ok : Forall same sims17.
Proof. unfold sims17.
srow_. { unfold Mnemonic32.i_movhpd, Mnemonic.i_movhpd. row_sim. }
srow_. { unfold Mnemonic32.i_movhps, Mnemonic.i_movhps. row_sim. }
srow_. { unfold Mnemonic32.i_movlhps, Mnemonic.i_movlhps. row_sim. }
srow_. { unfold Mnemonic32.i_movlpd, Mnemonic.i_movlpd. row_sim. }
srow_. { unfold Mnemonic32.i_movlps, Mnemonic.i_movlps. row_sim. }
srow_. { unfold Mnemonic32.i_movmskps, Mnemonic.i_movmskps. row_sim. }
srow_. { unfold Mnemonic32.i_movmskpd, Mnemonic32.i_movmskps, Mnemonic.i_movmskpd, Mnemonic.i_movmskps. row_sim. }
row. { unfold Mnemonic32.i_movntdq, Mnemonic.i_movntdq. row_sim. }
srow_. { unfold Mnemonic32.i_movntdqa, Mnemonic.i_movntdqa. row_sim. }
srow_. { unfold Mnemonic32.i_movnti, Mnemonic.i_movnti. row_sim. }
row. { unfold Mnemonic32.i_movntpd, Mnemonic.i_movntpd. row_sim. }
row. { unfold Mnemonic32.i_movntps, Mnemonic.i_movntps. row_sim. }
srow_. { unfold Mnemonic32.i_movntq, Mnemonic.i_movntq. row_sim. }
srow_. { unfold Mnemonic32.i_movq_am, Mnemonic.i_movq_am. row_sim. }
srow_. { unfold Mnemonic32.i_movq_mo, Mnemonic.i_movq_mo. row_sim. }
srow_. { unfold Mnemonic32.i_movq2dq, Mnemonic.i_movq2dq. row_sim. }
srow_. { unfold Mnemonic32.i_movsd_ax, Mnemonic.i_movsd_ax. row_sim. }
srow_. { unfold Mnemonic32.i_movsd_xo, Mnemonic.i_movsd_xo. row_sim. }
srow_. { unfold Mnemonic32.i_movshdup, Mnemonic.i_movshdup. row_sim. }
srow_. { unfold Mnemonic32.i_movsldup, Mnemonic.i_movsldup. row_sim. }
srow_. { unfold Mnemonic32.i_movss_ax, Mnemonic.i_movss_ax. row_sim. }
srow_. { unfold Mnemonic32.i_movss_xo, Mnemonic.i_movss_xo. row_sim. }
srow_. { unfold Mnemonic32.i_movsx, Mnemonic.i_movsx. row_sim. }
srow_. { unfold Mnemonic32.i_movupd_ax, Mnemonic.i_movupd_ax. row_sim. }
srow_. { unfold Mnemonic32.i_movupd_xo, Mnemonic.i_movupd_xo. row_sim. }
apply Forall_nil. Qed.
Definition sims18 : list b_entry :=
  [mkB "movups_ax" (fun v => let (o, a, r, n, e, s) := v in Mnemonic32.i_movups_ax (a 0) (r 1))
     (fun v => let (o, a, r, n, e, s) := v in Mnemonic.i_movups_ax (widen_addr (a 0)) (r 1));
   mkB "movups_xo" (fun v => let (o, a, r, n, e, s) := v in Mnemonic32.i_movups_xo (r 0) (o 1))
     (fun v => let (o, a, r, n, e, s) := v in Mnemonic.i_movups_xo (r 0) (widen_op (o 1)));
   mkB "movzx" (fun v => let (o, a, r, n, e, s) := v in Mnemonic32.i_movzx (r 0) (o 1))
     (fun v => let (o, a, r, n, e, s) := v in Mnemonic.i_movzx (r 0) (widen_op (o 1)));
   mkB "mpsadbw" (fun v => let (o, a, r, n, e, s) := v in Mnemonic32.i_mpsadbw (r 0) (o 1) (n 2))
     (fun v => let (o, a, r, n, e, s) := v in Mnemonic.i_mpsadbw (r 0) (widen_op (o 1)) (n 2));
   mkB "mul" (fun v => let (o, a, r, n, e, s) := v in Mnemonic32.i_mul (o 0))
     (fun v => let (o, a, r, n, e, s) := v in Mnemonic.i_mul (widen_op (o 0)));
   mkB "mulpd" (fun v => let (o, a, r, n, e, s) := v in Mnemonic32.i_mulpd (r 0) (o 1))
     (fun v => let (o, a, r, n, e, s) := v in Mnemonic.i_mulpd (r 0) (widen_op (o 1)));
   mkB "mulps" (fun v => let (o, a, r, n, e, s) := v in Mnemonic32.i_mulps (r 0) (o 1))
     (fun v => let (o, a, r, n, e, s) := v in Mnemonic.i_mulps (r 0) (widen_op (o 1)));
   mkB "mulsd" (fun v => let (o, a, r, n, e, s) := v in Mnemonic32.i_mulsd (r 0) (o 1))
     (fun v => let (o, a, r, n, e, s) := v in Mnemonic.i_mulsd (r 0) (widen_op (o 1)));
   mkB "mulss" (fun v => let (o, a, r, n, e, s) := v in Mnemonic32.i_mulss (r 0) (o 1))
     (fun v => let (o, a, r, n, e, s) := v in Mnemonic.i_mulss (r 0) (widen_op (o 1)));
   mkB "mulx" (fun v => let (o, a, r, n, e, s) := v in Mnemonic32.i_mulx (r 0) (r 1) (o 2))
     (fun v => let (o, a, r, n, e, s) := v in Mnemonic.i_mulx (r 0) (r 1) (widen_op (o 2)));
   mkB "neg_o" (fun v => let (o, a, r, n, e, s) := v in Mnemonic32.i_neg_o (o 0))
     (fun v => let (o, a, r, n, e, s) := v in Mnemonic.i_neg_o (widen_op (o 0)));
   mkB "neg_ro" (fun v => let (o, a, r, n, e, s) := v in Mnemonic32.i_neg_ro (r 0) (o 1))
     (fun v => let (o, a, r, n, e, s) := v in Mnemonic.i_neg_ro (r 0) (widen_op (o 1)));
   mkB "not__o" (fun v => let (o, a, r, n, e, s) := v in Mnemonic32.i_not__o (o 0))
     (fun v => let (o, a, r, n, e, s) := v in Mnemonic.i_not__o (widen_op (o 0)));
   mkB "not__ro" (fun v => let (o, a, r, n, e, s) := v in Mnemonic32.i_not__ro (r 0) (o 1))
     (fun v => let (o, a, r, n, e, s) := v in Mnemonic.i_not__ro (r 0) (widen_op (o 1)));
   mkB "or__oi" (fun v => let (o, a, r, n, e, s) := v in Mnemonic32.i_or__oi (o 0) (n 1))
     (fun v => let (o, a, r, n, e, s) := v in Mnemonic.i_or__oi (widen_op (o 0)) (n 1));
   mkB "or__oo" (fun v => let (o, a, r, n, e, s) := v in Mnemonic32.i_or__oo (o 0) (o 1))
     (fun v => let (o, a, r, n, e, s) := v in Mnemonic.i_or__oo (widen_op (o 0)) (widen_op (o 1)));
   mkB "or__roi" (fun v => let (o, a, r, n, e, s) := v in Mnemonic32.i_or__roi (r 0) (o 1) (n 2))
     (fun v => let (o, a, r, n, e, s) := v in Mnemonic.i_or__roi (r 0) (widen_op (o 1)) (n 2));
   mkB "or__roo" (fun v => let (o, a, r, n, e, s) := v in Mnemonic32.i_or__roo (r 0) (o 1) (o 2))
     (fun v => let (o, a, r, n, e, s) := v in Mnemonic.i_or__roo (r 0) (widen_op (o 1)) (widen_op (o 2)));
   mkB "orpd" (fun v => let (o, a, r, n, e, s) := v in Mnemonic32.i_orpd (r 0) (o 1))
     (fun v => let (o, a, r, n, e, s) := v in Mnemonic.i_orpd (r 0) (widen_op (o 1)));
   mkB "orps" (fun v => let (o, a, r, n, e, s) := v in Mnemonic32.i_orps (r 0) (o 1))
     (fun v => let (o, a, r, n, e, s) := v in Mnemonic.i_orps (r 0) (widen_op (o 1)));
   mkB "pabsb" (fun v => let (o, a, r, n, e, s) := v in Mnemonic32.i_pabsb (r 0) (o 1))
     (fun v => let (o, a, r, n, e, s) := v in Mnemonic.i_pabsb (r 0) (widen_op (o 1)));
   mkB "pabsd" (fun v => let (o, a, r, n, e, s) := v in Mnemonic32.i_pabsd (r 0) (o 1))
     (fun v => let (o, a, r, n, e, s) := v in Mnemonic.i_pabsd (r 0) (widen_op (o 1)));
   mkB "pabsw" (fun v => let (o, a, r, n, e, s) := v in Mnemonic32.i_pabsw (r 0) (o 1))
     (fun v => let (o, a, r, n, e, s) := v in Mnemonic.i_pabsw (r 0) (widen_op (o 1)));
   mkB "packssdw" (fun v => let (o, a, r, n, e, s) := v in Mnemonic32.i_packssdw (r 0) (o 1))
     (fun v => let (o, a, r, n, e, s) := v in Mnemonic.i_packssdw (r 0) (widen_op (o 1)));
   mkB "packsswb" (fun v => let (o, a, r, n, e, s) := v in Mnemonic32.i_packsswb (r 0) (o 1))
     (fun v => let (o, a, r, n, e, s) := v in Mnemonic.i_packsswb (r 0) (widen_op (o 1)))].
Lemma sims18_ok : Forall same sims18.
Proof. unfold sims18.
srow_. { unfold Mnemonic32.i_movups_ax, Mnemonic.i_movups_ax. row_sim. }
srow_. { unfold Mnemonic32.i_movups_xo, Mnemonic.i_movups_xo. row_sim. }
srow_. { unfold Mnemonic32.i_movzx, Mnemonic.i_movzx. row_sim. }
srow_. { unfold Mnemonic32.i_mpsadbw, Mnemonic.i_mpsadbw. row_sim. }
row. { unfold Mnemonic32.i_mul, Mnemonic.i_mul. row_sim. }
srow_. { unfold Mnemonic32.i_mulpd, Mnemonic.i_mulpd. row_sim. }
srow_. { unfold Mnemonic32.i_mulps, Mnemonic.i_mulps. row_sim. }
srow_. { unfold Mnemonic32.i_mulsd, Mnemonic.i_mulsd. row_sim. }
srow_. { unfold Mnemonic32.i_mulss, Mnemonic.i_mulss. row_sim. }
row. { unfold Mnemonic32.i_mulx, Mnemonic.i_mulx. row_sim. }
row. { unfold Mnemonic32.i_neg_o, Mnemonic.i_neg_o. row_sim. }
row. { unfold Mnemonic32.i_neg_ro, Mnemonic.i_neg_ro. row_sim. }
row. { unfold Mnemonic32.i_not__o, Mnemonic.i_not__o. row_sim. }
row. { unfold Mnemonic32.i_not__ro, Mnemonic.i_not__ro. row_sim. }
row. { unfold Mnemonic32.i_or__oi, Mnemonic.i_or__oi. row_sim. }
srow_. { unfold Mnemonic32.i_or__oo, Mnemonic.i_or__oo. row_sim. }
row. { unfold Mnemonic32.i_or__roi, Mnemonic.i_or__roi. row_sim. }
row. { unfold Mnemonic32.i_or__roo, Mnemonic.i_or__roo. row_sim. }
srow_. { unfold Mnemonic32.i_orpd, Mnemonic.i_orpd. row_sim. }
srow_. { unfold Mnemonic32.i_orps, Mnemonic.i_orps. row_sim. }
srow_. { unfold Mnemonic32.i_pabsb, Mnemonic.i_pabsb. row_sim. }
srow_. { unfold Mnemonic32.i_pabsd, Mnemonic.i_pabsd. row_sim. }
srow_. { unfold Mnemonic32.i_pabsw, Mnemonic.i_pabsw. row_sim. }
srow_. { unfold Mnemonic32.i_packssdw, Mnemonic.i_packssdw. row_sim. }
srow_. { unfold Mnemonic32.i_packsswb, Mnemonic.i_packsswb. row_sim. }
apply Forall_nil. Qed.
Definition sims19 : list b_entry :=
  [mkB "packusdw" (fun v => let (o, a, r, n, e, s) := v in Mnemonic32.i_packusdw (r 0) (o 1))
     (fun v => let (o, a, r, n, e, s) := v in Mnemonic.i_packusdw (r 0) (widen_op (o 1)));
   mkB "packuswb" (fun v => let (o, a, r, n, e, s) := v in Mnemonic32.i_packuswb (r 0) (o 1))
     (fun v => let (o, a, r, n, e, s) := v in Mnemonic.i_packuswb (r 0) (widen_op (o 1)));
   mkB "paddb" (fun v => let (o, a, r, n, e, s) := v in Mnemonic32.i_paddb (r 0) (o 1))
     (fun v => let (o, a, r, n, e, s) := v in Mnemonic.i_paddb (r 0) (widen_op (o 1)));
   mkB "paddd" (fun v => let (o, a, r, n, e, s) := v in Mnemonic32.i_paddd (r 0) (o 1))
     (fun v => let (o, a, r, n, e, s) := v in Mnemonic.i_paddd (r 0) (widen_op (o 1)));
   mkB "paddq" (fun v => let (o, a, r, n, e, s) := v in Mnemonic32.i_paddq (r 0) (o 1))
     (fun v => let (o, a, r, n, e, s) := v in Mnemonic.i_paddq (r 0) (widen_op (o 1)));
   mkB "paddsb" (fun v => let (o, a, r, n, e, s) := v in Mnemonic32.i_paddsb (r 0) (o 1))
     (fun v => let (o, a, r, n, e, s) := v in Mnemonic.i_paddsb (r 0) (widen_op (o 1)));
   mkB "paddsw" (fun v => let (o, a, r, n, e, s) := v in Mnemonic32.i_paddsw (r 0) (o 1))
     (fun v => let (o, a, r, n, e, s) := v in Mnemonic.i_paddsw (r 0) (widen_op (o 1)));
   mkB "paddusb" (fun v => let (o, a, r, n, e, s) := v in Mnemonic32.i_paddusb (r 0) (o 1))
     (fun v => let (o, a, r, n, e, s) := v in Mnemonic.i_paddusb (r 0) (widen_op (o 1)));
   mkB "paddusw" (fun v => let (o, a, r, n, e, s) := v in Mnemonic32.i_paddusw (r 0) (o 1))
     (fun v => let (o, a, r, n, e, s) := v in Mnemonic.i_paddusw (r 0) (widen_op (o 1)));
   mkB "paddw" (fun v => let (o, a, r, n, e, s) := v in Mnemonic32.i_paddw (r 0) (o 1))
     (fun v => let (o, a, r, n, e, s) := v in Mnemonic.i_paddw (r 0) (widen_op (o 1)));
   mkB "palignr" (fun v => let (o, a, r, n, e, s) := v in Mnemonic32.i_palignr (r 0) (o 1) (n 2))
     (fun v => let (o, a, r, n, e, s) := v in Mnemonic.i_palignr (r 0) (widen_op (o 1)) (n 2));
   mkB "pand" (fun v => let (o, a, r, n, e, s) := v in Mnemonic32.i_pand (r 0) (o 1))
     (fun v => let (o, a, r, n, e, s) := v in Mnemonic.i_pand (r 0) (widen_op (o 1)));
   mkB "pandn" (fun v => let (o, a, r, n, e, s) := v in Mnemonic32.i_pandn (r 0) (o 1))
     (fun v => let (o, a, r, n, e, s) := v in Mnemonic.i_pandn (r 0) (widen_op (o 1)));
   mkB "pavgb" (fun v => let (o, a, r, n, e, s) := v in Mnemonic32.i_pavgb (r 0) (o 1))
     (fun v => let (o, a, r, n, e, s) := v in Mnemonic.i_pavgb (r 0) (widen_op (o 1)));
   mkB "pavgw" (fun v => let (o, a, r, n, e, s) := v in Mnemonic32.i_pavgw (r 0) (o 1))
     (fun v => let (o, a, r, n, e, s) := v in Mnemonic.i_pavgw (r 0) (widen_op (o 1)));
   mkB "pblendvb" (fun v => let (o, a, r, n, e, s) := v in Mnemonic32.i_pblendvb (r 0) (o 1))
     (fun v => let (o, a, r, n, e, s) := v in Mnemonic.i_pblendvb (r 0) (widen_op (o 1)));
   mkB "pblendw" (fun v => let (o, a, r, n, e, s) := v in Mnemonic32.i_pblendw (r 0) (o 1) (n 2))
     (fun v => let (o, a, r, n, e, s) := v in Mnemonic.i_pblendw (r 0) (widen_op (o 1)) (n 2));
   mkB "pclmulqdq" (fun v => let (o, a, r, n, e, s) := v in Mnemonic32.i_pclmulqdq (r 0) (o 1) (n 2))
     (fun v => let (o, a, r, n, e, s) := v in Mnemonic.i_pclmulqdq (r 0) (widen_op (o 1)) (n 2));
   mkB "pclmulhqhqdq" (fun v => let (o, a, r, n, e, s) := v in Mnemonic32.i_pclmulhqhqdq (r 0) (o 1))
     (fun v => let (o, a, r, n, e, s) := v in Mnemonic.i_pclmulhqhqdq (r 0) (widen_op (o 1)));
   mkB "pclmulhqlqdq" (fun v => let (o, a, r, n, e, s) := v in Mnemonic32.i_pclmulhqlqdq (r 0) (o 1))
     (fun v => let (o, a, r, n, e, s) := v in Mnemonic.i_pclmulhqlqdq (r 0) (widen_op (o 1)));
   mkB "pclmullqhqdq" (fun v => let (o, a, r, n, e, s) := v in Mnemonic32.i_pclmullqhqdq (r 0) (o 1))
     (fun v => let (o, a, r, n, e, s) := v in Mnemonic.i_pclmullqhqdq (r 0) (widen_op (o 1)));
   mkB "pclmullqlqdq" (fun v => let (o, a, r, n, e, s) := v in Mnemonic32.i_pclmullqlqdq (r 0) (o 1))
     (fun v => let (o, a, r, n, e, s) := v in Mnemonic.i_pclmullqlqdq (r 0) (widen_op (o 1)));
   mkB "pcmpeqb" (fun v => let (o, a, r, n, e, s) := v in Mnemonic32.i_pcmpeqb (r 0) (o 1))
     (fun v => let (o, a, r, n, e, s) := v in Mnemonic.i_pcmpeqb (r 0) (widen_op (o 1)));
   mkB "pcmpeqd" (fun v => let (o, a, r, n, e, s) := v in Mnemonic32.i_pcmpeqd (r 0) (o 1))
     (fun v => let (o, a, r, n, e, s) := v in Mnemonic.i_pcmpeqd (r 0) (widen_op (o 1)));
   mkB "pcmpeqq" (fun v => let (o, a, r, n, e, s) := v in Mnemonic32.i_pcmpeqq (r 0) (o 1))
     (fun v => let (o, a, r, n, e, s) := v in Mnemonic.i_pcmpeqq (r 0) (widen_op (o 1)))].
Lemma sims19_ok : Forall same sims19.
Proof. unfold sims19.
srow_. { unfold Mnemonic32.i_packusdw, Mnemonic.i_packusdw. row_sim. }
srow_. { unfold Mnemonic32.i_packuswb, Mnemonic.i_packuswb. row_sim. }
srow_. { unfold Mnemonic32.i_paddb, Mnemonic.i_paddb. row_sim. }
srow_. { unfold Mnemonic32.i_paddd, Mnemonic.i_paddd. row_sim. }
srow_. { unfold Mnemonic32.i_paddq, Mnemonic.i_paddq. row_sim. }
srow_. { unfold Mnemonic32.i_paddsb, Mnemonic.i_paddsb. row_sim. }
srow_. { unfold Mnemonic32.i_paddsw, Mnemonic.i_paddsw. row_sim. }
srow_. { unfold Mnemonic32.i_paddusb, Mnemonic.i_paddusb. row_sim. }
srow_. { unfold Mnemonic32.i_paddusw, Mnemonic.i_paddusw. row_sim. }
srow_. { unfold Mnemonic32.i_paddw, Mnemonic.i_paddw. row_sim. }
srow_. { unfold Mnemonic32.i_palignr, Mnemonic.i_palignr. row_sim. }
srow_. { unfold Mnemonic32.i_pand, Mnemonic.i_pand. row_sim. }
srow_. { unfold Mnemonic32.i_pandn, Mnemonic.i_pandn. row_sim. }
srow_. { unfold Mnemonic32.i_pavgb, Mnemonic.i_pavgb. row_sim. }
srow_. { unfold Mnemonic32.i_pavgw, Mnemonic.i_pavgw. row_sim. }
srow_. { unfold Mnemonic32.i_pblendvb, Mnemonic.i_pblendvb. row_sim. }
srow_. { unfold Mnemonic32.i_pblendw, Mnemonic.i_pblendw. row_sim. }
srow_. { unfold Mnemonic32.i_pclmulqdq, Mnemonic.i_pclmulqdq. row_sim. }
srow_. { unfold Mnemonic32.i_pclmulhqhqdq, Mnemonic32.i_pclmulqdq, Mnemonic.i_pclmulhqhqdq, Mnemonic.i_pclmulqdq. row_sim. }
srow_. { unfold Mnemonic32.i_pclmulhqlqdq, Mnemonic32.i_pclmulqdq, Mnemonic.i_pclmulhqlqdq, Mnemonic.i_pclmulqdq. row_sim. }
srow_. { unfold Mnemonic32.i_pclmullqhqdq, Mnemonic32.i_pclmulqdq, Mnemonic.i_pclmullqhqdq, Mnemonic.i_pclmulqdq. row_sim. }
srow_. { unfold Mnemonic32.i_pclmullqlqdq, Mnemonic32.i_pclmulqdq, Mnemonic.i_pclmullqlqdq, Mnemonic.i_pclmulqdq. row_sim. }
srow_. { unfold Mnemonic32.i_pcmpeqb, Mnemonic.i_pcmpeqb. row_sim. }
srow_. { unfold Mnemonic32.i_pcmpeqd, Mnemonic.i_pcmpeqd. row_sim. }
srow_. { unfold Mnemonic32.i_pcmpeqq, Mnemonic.i_pcmpeqq. row_sim. }
apply Forall_nil. Qed.
Definition sims20 : list b_entry :=
  [mkB "pcmpeqw" (fun v => let (o, a, r, n, e, s) := v in Mnemonic32.i_pcmpeqw (r 0) (o 1))
     (fun v => let (o, a, r, n, e, s) := v in Mnemonic.i_pcmpeqw (r 0) (widen_op (o 1)));
   mkB "pcmpestri" (fun v => let (o, a, r, n, e, s) := v in Mnemonic32.i_pcmpestri (r 0) (o 1) (n 2))
     (fun v => let (o, a, r, n, e, s) := v in Mnemonic.i_pcmpestri (r 0) (widen_op (o 1)) (n 2));
   mkB "pcmpestrm" (fun v => let (o, a, r, n, e, s) := v in Mnemonic32.i_pcmpestrm (r 0) (o 1) (n 2))
     (fun v => let (o, a, r, n, e, s) := v in Mnemonic.i_pcmpestrm (r 0) (widen_op (o 1)) (n 2));
   mkB "pcmpgtb" (fun v => let (o, a, r, n, e, s) := v in Mnemonic32.i_pcmpgtb (r 0) (o 1))
     (fun v => let (o, a, r, n, e, s) := v in Mnemonic.i_pcmpgtb (r 0) (widen_op (o 1)));
   mkB "pcmpgtd" (fun v => let (o, a, r, n, e, s) := v in Mnemonic32.i_pcmpgtd (r 0) (o 1))
     (fun v => let (o, a, r, n, e, s) := v in Mnemonic.i_pcmpgtd (r 0) (widen_op (o 1)));
   mkB "pcmpgtq" (fun v => let (o, a, r, n, e, s) := v in Mnemonic32.i_pcmpgtq (r 0) (o 1))
     (fun v => let (o, a, r, n, e, s) := v in Mnemonic.i_pcmpgtq (r 0) (widen_op (o 1)));
   mkB "pcmpgtw" (fun v => let (o, a, r, n, e, s) := v in Mnemonic32.i_pcmpgtw (r 0) (o 1))
     (fun v => let (o, a, r, n, e, s) := v in Mnemonic.i_pcmpgtw (r 0) (widen_op (o 1)));
   mkB "pcmpistri" (fun v => let (o, a, r, n, e, s) := v in Mnemonic32.i_pcmpistri (r 0) (o 1) (n 2))
     (fun v => let (o, a, r, n, e, s) := v in Mnemonic.i_pcmpistri (r 0) (widen_op (o 1)) (n 2));
   mkB "pcmpistrm" (fun v => let (o, a, r, n, e, s) := v in Mnemonic32.i_pcmpistrm (r 0) (o 1) (n 2))
     (fun v => let (o, a, r, n, e, s) := v in Mnemonic.i_pcmpistrm (r 0) (widen_op (o 1)) (n 2));
   mkB "pdep" (fun v => let (o, a, r, n, e, s) := v in Mnemonic32.i_pdep (r 0) (r 1) (o 2))
     (fun v => let (o, a, r, n, e, s) := v in Mnemonic.i_pdep (r 0) (r 1) (widen_op (o 2)));
   mkB "pext" (fun v => let (o, a, r, n, e, s) := v in Mnemonic32.i_pext (r 0) (r 1) (o 2))
     (fun v => let (o, a, r, n, e, s) := v in Mnemonic.i_pext (r 0) (r 1) (widen_op (o 2)));
   mkB "pextrb" (fun v => let (o, a, r, n, e, s) := v in Mnemonic32.i_pextrb (o 0) (r 1) (n 2))
     (fun v => let (o, a, r, n, e, s) := v in Mnemonic.i_pextrb (widen_op (o 0)) (r 1) (n 2));
   mkB "pextrd" (fun v => let (o, a, r, n, e, s) := v in Mnemonic32.i_pextrd (o 0) (r 1) (n 2))
     (fun v => let (o, a, r, n, e, s) := v in Mnemonic.i_pextrd (widen_op (o 0)) (r 1) (n 2));
   mkB "pextrw" (fun v => let (o, a, r, n, e, s) := v in Mnemonic32.i_pextrw (o 0) (r 1) (n 2))
     (fun v => let (o, a, r, n, e, s) := v in Mnemonic.i_pextrw (widen_op (o 0)) (r 1) (n 2));
   mkB "phaddd" (fun v => let (o, a, r, n, e, s) := v in Mnemonic32.i_phaddd (r 0) (o 1))
     (fun v => let (o, a, r, n, e, s) := v in Mnemonic.i_phaddd (r 0) (widen_op (o 1)));
   mkB "phaddsw" (fun v => let (o, a, r, n, e, s) := v in Mnemonic32.i_phaddsw (r 0) (o 1))
     (fun v => let (o, a, r, n, e, s) := v in Mnemonic.i_phaddsw (r 0) (widen_op (o 1)));
   mkB "phaddw" (fun v => let (o, a, r, n, e, s) := v in Mnemonic32.i_phaddw (r 0) (o 1))
     (fun v => let (o, a, r, n, e, s) := v in Mnemonic.i_phaddw (r 0) (widen_op (o 1)));
   mkB "phminposuw" (fun v => let (o, a, r, n, e, s) := v in Mnemonic32.i_phminposuw (r 0) (o 1))
     (fun v => let (o, a, r, n, e, s) := v in Mnemonic.i_phminposuw (r 0) (widen_op (o 1)));
   mkB "phsubd" (fun v => let (o, a, r, n, e, s) := v in Mnemonic32.i_phsubd (r 0) (o 1))
     (fun v => let (o, a, r, n, e, s) := v in Mnemonic.i_phsubd (r 0) (widen_op (o 1)));
   mkB "phsubsw" (fun v => let (o, a, r, n, e, s) := v in Mnemonic32.i_phsubsw (r 0) (o 1))
     (fun v => let (o, a, r, n, e, s) := v in Mnemonic.i_phsubsw (r 0) (widen_op (o 1)));
   mkB "phsubw" (fun v => let (o, a, r, n, e, s) := v in Mnemonic32.i_phsubw (r 0) (o 1))
     (fun v => let (o, a, r, n, e, s) := v in Mnemonic.i_phsubw (r 0) (widen_op (o 1)));
   mkB "pinsrb" (fun v => let (o, a, r, n, e, s) := v in Mnemonic32.i_pinsrb (r 0) (o 1) (n 2))
     (fun v => let (o, a, r, n, e, s) := v in Mnemonic.i_pinsrb (r 0) (widen_op (o 1)) (n 2));
   mkB "pinsrd" (fun v => let (o, a, r, n, e, s) := v in Mnemonic32.i_pinsrd (r 0) (o 1) (n 2))
     (fun v => let (o, a, r, n, e, s) := v in Mnemonic.i_pinsrd (r 0) (widen_op (o 1)) (n 2));
   mkB "pinsrw" (fun v => let (o, a, r, n, e, s) := v in Mnemonic32.i_pinsrw (r 0) (o 1) (n 2))
     (fun v => let (o, a, r, n, e, s) := v in Mnemonic.i_pinsrw (r 0) (widen_op (o 1)) (n 2));
   mkB "pmaddubsw" (fun v => let (o, a, r, n, e, s) := v in Mnemonic32.i_pmaddubsw (r 0) (o 1))
     (fun v => let (o, a, r, n, e, s) := v in Mnemonic.i_pmaddubsw (r 0) (widen_op (o 1)))].
Lemma sims20_ok : Forall same sims20.
Proof. unfold sims20.
srow_. { unfold Mnemonic32.i_pcmpeqw, Mnemonic.i_pcmpeqw. row_sim. }
srow_. { unfold Mnemonic32.i_pcmpestri, Mnemonic.i_pcmpestri. row_sim. }
srow_. { unfold Mnemonic32.i_pcmpestrm, Mnemonic.i_pcmpestrm. row_sim. }
srow_. { unfold Mnemonic32.i_pcmpgtb, Mnemonic.i_pcmpgtb. row_sim. }
srow_. { unfold Mnemonic32.i_pcmpgtd, Mnemonic.i_pcmpgtd. row_sim. }
srow_. { unfold Mnemonic32.i_pcmpgtq, Mnemonic.i_pcmpgtq. row_sim. }
srow_. { unfold Mnemonic32.i_pcmpgtw, Mnemonic.i_pcmpgtw. row_sim. }
srow_. { unfold Mnemonic32.i_pcmpistri, Mnemonic.i_pcmpistri. row_sim. }
srow_. { unfold Mnemonic32.i_pcmpistrm, Mnemonic.i_pcmpistrm. row_sim. }
row. { unfold Mnemonic32.i_pdep, Mnemonic.i_pdep. row_sim. }
row. { unfold Mnemonic32.i_pext, Mnemonic.i_pext. row_sim. }
srow_. { unfold Mnemonic32.i_pextrb, Mnemonic.i_pextrb. row_sim. }
srow_. { unfold Mnemonic32.i_pextrd, Mnemonic.i_pextrd. row_sim. }
srow_. { unfold Mnemonic32.i_pextrw, Mnemonic.i_pextrw. row_sim. }
srow_. { unfold Mnemonic32.i_phaddd, Mnemonic.i_phaddd. row_sim. }
srow_. { unfold Mnemonic32.i_phaddsw, Mnemonic.i_phaddsw. row_sim. }
srow_. { unfold Mnemonic32.i_phaddw, Mnemonic.i_phaddw. row_sim. }
srow_. { unfold Mnemonic32.i_phminposuw, Mnemonic.i_phminposuw. row_sim. }
srow_. { unfold Mnemonic32.i_phsubd, Mnemonic.i_phsubd. row_sim. }
srow_. { unfold Mnemonic32.i_phsubsw, Mnemonic.i_phsubsw. row_sim. }
srow_. { unfold Mnemonic32.i_phsubw, Mnemonic.i_phsubw. row_sim. }
srow_. { unfold Mnemonic32.i_pinsrb, Mnemonic.i_pinsrb. row_sim. }
srow_. { unfold Mnemonic32.i_pinsrd, Mnemonic.i_pinsrd. row_sim. }
srow_. { unfold Mnemonic32.i_pinsrw, Mnemonic.i_pinsrw. row_sim. }
srow_. { unfold Mnemonic32.i_pmaddubsw, Mnemonic.i_pmaddubsw. row_sim. }
apply Forall_nil. Qed.
Definition sims21 : list b_entry :=
  [mkB "pmaddwd" (fun v => let (o, a, r, n, e, s) := v in Mnemonic32.i_pmaddwd (r 0) (o 1))
     (fun v => let (o, a, r, n, e, s) := v in Mnemonic.i_pmaddwd (r 0) (widen_op (o 1)));
   mkB "pmaxsb" (fun v => let (o, a, r, n, e, s) := v in Mnemonic32.i_pmaxsb (r 0) (o 1))
     (fun v => let (o, a, r, n, e, s) := v in Mnemonic.i_pmaxsb (r 0) (widen_op (o 1)));
   mkB "pmaxsd" (fun v => let (o, a, r, n, e, s) := v in Mnemonic32.i_pmaxsd (r 0) (o 1))
     (fun v => let (o, a, r, n, e, s) := v in Mnemonic.i_pmaxsd (r 0) (widen_op (o 1)));
   mkB "pmaxsw" (fun v => let (o, a, r, n, e, s) := v in Mnemonic32.i_pmaxsw (r 0) (o 1))
     (fun v => let (o, a, r, n, e, s) := v in Mnemonic.i_pmaxsw (r 0) (widen_op (o 1)));
   mkB "pmaxub" (fun v => let (o, a, r, n, e, s) := v in Mnemonic32.i_pmaxub (r 0) (o 1))
     (fun v => let (o, a, r, n, e, s) := v in Mnemonic.i_pmaxub (r 0) (widen_op (o 1)));
   mkB "pmaxud" (fun v => let (o, a, r, n, e, s) := v in Mnemonic32.i_pmaxud (r 0) (o 1))
     (fun v => let (o, a, r, n, e, s) := v in Mnemonic.i_pmaxud (r 0) (widen_op (o 1)));
   mkB "pmaxuw" (fun v => let (o, a, r, n, e, s) := v in Mnemonic32.i_pmaxuw (r 0) (o 1))
     (fun v => let (o, a, r, n, e, s) := v in Mnemonic.i_pmaxuw (r 0) (widen_op (o 1)));
   mkB "pminsb" (fun v => let (o, a, r, n, e, s) := v in Mnemonic32.i_pminsb (r 0) (o 1))
     (fun v => let (o, a, r, n, e, s) := v in Mnemonic.i_pminsb (r 0) (widen_op (o 1)));
   mkB "pminsd" (fun v => let (o, a, r, n, e, s) := v in Mnemonic32.i_pminsd (r 0) (o 1))
     (fun v => let (o, a, r, n, e, s) := v in Mnemonic.i_pminsd (r 0) (widen_op (o 1)));
   mkB "pminsw" (fun v => let (o, a, r, n, e, s) := v in Mnemonic32.i_pminsw (r 0) (o 1))
     (fun v => let (o, a, r, n, e, s) := v in Mnemonic.i_pminsw (r 0) (widen_op (o 1)));
   mkB "pminub" (fun v => let (o, a, r, n, e, s) := v in Mnemonic32.i_pminub (r 0) (o 1))
     (fun v => let (o, a, r, n, e, s) := v in Mnemonic.i_pminub (r 0) (widen_op (o 1)));
   mkB "pminud" (fun v => let (o, a, r, n, e, s) := v in Mnemonic32.i_pminud (r 0) (o 1))
     (fun v => let (o, a, r, n, e, s) := v in Mnemonic.i_pminud (r 0) (widen_op (o 1)));
   mkB "pminuw" (fun v => let (o, a, r, n, e, s) := v in Mnemonic32.i_pminuw (r 0) (o 1))
     (fun v => let (o, a, r, n, e, s) := v in Mnemonic.i_pminuw (r 0) (widen_op (o 1)));
   mkB "pmovmskb" (fun v => let (o, a, r, n, e, s) := v in Mnemonic32.i_pmovmskb (r 0) (r 1))
     (fun v => let (o, a, r, n, e, s) := v in Mnemonic.i_pmovmskb (r 0) (r 1));
   mkB "pmovsxbd" (fun v => let (o, a, r, n, e, s) := v in Mnemonic32.i_pmovsxbd (r 0) (o 1))
     (fun v => let (o, a, r, n, e, s) := v in Mnemonic.i_pmovsxbd (r 0) (widen_op (o 1)));
   mkB "pmovsxbq" (fun v => let (o, a, r, n, e, s) := v in Mnemonic32.i_pmovsxbq (r 0) (o 1))
     (fun v => let (o, a, r, n, e, s) := v in Mnemonic.i_pmovsxbq (r 0) (widen_op (o 1)));
   mkB "pmovsxbw" (fun v => let (o, a, r, n, e, s) := v in Mnemonic32.i_pmovsxbw (r 0) (o 1))
     (fun v => let (o, a, r, n, e, s) := v in Mnemonic.i_pmovsxbw (r 0) (widen_op (o 1)));
   mkB "pmovsxdq" (fun v => let (o, a, r, n, e, s) := v in Mnemonic32.i_pmovsxdq (r 0) (o 1))
     (fun v => let (o, a, r, n, e, s) := v in Mnemonic.i_pmovsxdq (r 0) (widen_op (o 1)));
   mkB "pmovsxwd" (fun v => let (o, a, r, n, e, s) := v in Mnemonic32.i_pmovsxwd (r 0) (o 1))
     (fun v => let (o, a, r, n, e, s) := v in Mnemonic.i_pmovsxwd (r 0) (widen_op (o 1)));
   mkB "pmovsxwq" (fun v => let (o, a, r, n, e, s) := v in Mnemonic32.i_pmovsxwq (r 0) (o 1))
     (fun v => let (o, a, r, n, e, s) := v in Mnemonic.i_pmovsxwq (r 0) (widen_op (o 1)));
   mkB "pmovzxbd" (fun v => let (o, a, r, n, e, s) := v in Mnemonic32.i_pmovzxbd (r 0) (o 1))
     (fun v => let (o, a, r, n, e, s) := v in Mnemonic.i_pmovzxbd (r 0) (widen_op (o 1)));
   mkB "pmovzxbq" (fun v => let (o, a, r, n, e, s) := v in Mnemonic32.i_pmovzxbq (r 0) (o 1))
     (fun v => let (o, a, r, n, e, s) := v in Mnemonic.i_pmovzxbq (r 0) (widen_op (o 1)));
   mkB "pmovzxbw" (fun v => let (o, a, r, n, e, s) := v in Mnemonic32.i_pmovzxbw (r 0) (o 1))
     (fun v => let (o, a, r, n, e, s) := v in Mnemonic.i_pmovzxbw (r 0) (widen_op (o 1)));
   mkB "pmovzxdq" (fun v => let (o, a, r, n, e, s) := v in Mnemonic32.i_pmovzxdq (r 0) (o 1))
     (fun v => let (o, a, r, n, e, s) := v in Mnemonic.i_pmovzxdq (r 0) (widen_op (o 1)));
   mkB "pmovzxwd" (fun v => let (o, a, r, n, e, s) := v in Mnemonic32.i_pmovzxwd (r 0) (o 1))
     (fun v => let (o, a, r, n, e, s) := v in Mnemonic.i_pmovzxwd (r 0) (widen_op (o 1)))].
Lemma sims21_ok : Forall same sims21.
Proof. unfold sims21.
srow_. { unfold Mnemonic32.i_pmaddwd, Mnemonic.i_pmaddwd. row_sim. }
srow_. { unfold Mnemonic32.i_pmaxsb, Mnemonic.i_pmaxsb. row_sim. }
srow_. { unfold Mnemonic32.i_pmaxsd, Mnemonic.i_pmaxsd. row_sim. }
srow_. { unfold Mnemonic32.i_pmaxsw, Mnemonic.i_pmaxsw. row_sim. }
srow_. { unfold Mnemonic32.i_pmaxub, Mnemonic.i_pmaxub. row_sim. }
srow_. { unfold Mnemonic32.i_pmaxud, Mnemonic.i_pmaxud. row_sim. }
srow_. { unfold Mnemonic32.i_pmaxuw, Mnemonic.i_pmaxuw. row_sim. }
srow_. { unfold Mnemonic32.i_pminsb, Mnemonic.i_pminsb. row_sim. }
srow_. { unfold Mnemonic32.i_pminsd, Mnemonic.i_pminsd. row_sim. }
srow_. { unfold Mnemonic32.i_pminsw, Mnemonic.i_pminsw. row_sim. }
srow_. { unfold Mnemonic32.i_pminub, Mnemonic.i_pminub. row_sim. }
srow_. { unfold Mnemonic32.i_pminud, Mnemonic.i_pminud. row_sim. }
srow_. { unfold Mnemonic32.i_pminuw, Mnemonic.i_pminuw. row_sim. }
srow_. { unfold Mnemonic32.i_pmovmskb, Mnemonic.i_pmovmskb. row_sim. }
srow_. { unfold Mnemonic32.i_pmovsxbd, Mnemonic.i_pmovsxbd. row_sim. }
srow_. { unfold Mnemonic32.i_pmovsxbq, Mnemonic.i_pmovsxbq. row_sim. }
srow_. { unfold Mnemonic32.i_pmovsxbw, Mnemonic.i_pmovsxbw. row_sim. }
srow_. { unfold Mnemonic32.i_pmovsxdq, Mnemonic.i_pmovsxdq. row_sim. }
srow_. { unfold Mnemonic32.i_pmovsxwd, Mnemonic.i_pmovsxwd. row_sim. }
srow_. { unfold Mnemonic32.i_pmovsxwq, Mnemonic.i_pmovsxwq. row_sim. }
srow_. { unfold Mnemonic32.i_pmovzxbd, Mnemonic.i_pmovzxbd. row_sim. }
srow_. { unfold Mnemonic32.i_pmovzxbq, Mnemonic.i_pmovzxbq. row_sim. }
srow_. { unfold Mnemonic32.i_pmovzxbw, Mnemonic.i_pmovzxbw. row_sim. }
srow_. { unfold Mnemonic32.i_pmovzxdq, Mnemonic.i_pmovzxdq. row_sim. }
srow_. { unfold Mnemonic32.i_pmovzxwd, Mnemonic.i_pmovzxwd. row_sim. }
apply Forall_nil. Qed.
Definition sims22 : list b_entry :=
  [mkB "pmovzxwq" (fun v => let (o, a, r, n, e, s) := v in Mnemonic32.i_pmovzxwq (r 0) (o 1))
     (fun v => let (o, a, r, n, e, s) := v in Mnemonic.i_pmovzxwq (r 0) (widen_op (o 1)));
   mkB "pmuldq" (fun v => let (o, a, r, n, e, s) := v in Mnemonic32.i_pmuldq (r 0) (o 1))
     (fun v => let (o, a, r, n, e, s) := v in Mnemonic.i_pmuldq (r 0) (widen_op (o 1)));
   mkB "pmulhrsw" (fun v => let (o, a, r, n, e, s) := v in Mnemonic32.i_pmulhrsw (r 0) (o 1))
     (fun v => let (o, a, r, n, e, s) := v in Mnemonic.i_pmulhrsw (r 0) (widen_op (o 1)));
   mkB "pmulhuw" (fun v => let (o, a, r, n, e, s) := v in Mnemonic32.i_pmulhuw (r 0) (o 1))
     (fun v => let (o, a, r, n, e, s) := v in Mnemonic.i_pmulhuw (r 0) (widen_op (o 1)));
   mkB "pmulhw" (fun v => let (o, a, r, n, e, s) := v in Mnemonic32.i_pmulhw (r 0) (o 1))
     (fun v => let (o, a, r, n, e, s) := v in Mnemonic.i_pmulhw (r 0) (widen_op (o 1)));
   mkB "pmulld" (fun v => let (o, a, r, n, e, s) := v in Mnemonic32.i_pmulld (r 0) (o 1))
     (fun v => let (o, a, r, n, e, s) := v in Mnemonic.i_pmulld (r 0) (widen_op (o 1)));
   mkB "pmullw" (fun v => let (o, a, r, n, e, s) := v in Mnemonic32.i_pmullw (r 0) (o 1))
     (fun v => let (o, a, r, n, e, s) := v in Mnemonic.i_pmullw (r 0) (widen_op (o 1)));
   mkB "pmuludq" (fun v => let (o, a, r, n, e, s) := v in Mnemonic32.i_pmuludq (r 0) (o 1))
     (fun v => let (o, a, r, n, e, s) := v in Mnemonic.i_pmuludq (r 0) (widen_op (o 1)));
   mkB "popcnt" (fun v => let (o, a, r, n, e, s) := v in Mnemonic32.i_popcnt (r 0) (o 1))
     (fun v => let (o, a, r, n, e, s) := v in Mnemonic.i_popcnt (r 0) (widen_op (o 1)));
   mkB "por" (fun v => let (o, a, r, n, e, s) := v in Mnemonic32.i_por (r 0) (o 1))
     (fun v => let (o, a, r, n, e, s) := v in Mnemonic.i_por (r 0) (widen_op (o 1)));
   mkB "prefetchit0" (fun v => let (o, a, r, n, e, s) := v in Mnemonic32.i_prefetchit0 (a 0))
     (fun v => let (o, a, r, n, e, s) := v in Mnemonic.i_prefetchit0 (widen_addr (a 0)));
   mkB "prefetchit1" (fun v => let (o, a, r, n, e, s) := v in Mnemonic32.i_prefetchit1 (a 0))
     (fun v => let (o, a, r, n, e, s) := v in Mnemonic.i_prefetchit1 (widen_addr (a 0)));
   mkB "prefetchnta" (fun v => let (o, a, r, n, e, s) := v in Mnemonic32.i_prefetchnta (a 0))
     (fun v => let (o, a, r, n, e, s) := v in Mnemonic.i_prefetchnta (widen_addr (a 0)));
   mkB "prefetcht0" (fun v => let (o, a, r, n, e, s) := v in Mnemonic32.i_prefetcht0 (a 0))
     (fun v => let (o, a, r, n, e, s) := v in Mnemonic.i_prefetcht0 (widen_addr (a 0)));
   mkB "prefetcht1" (fun v => let (o, a, r, n, e, s) := v in Mnemonic32.i_prefetcht1 (a 0))
     (fun v => let (o, a, r, n, e, s) := v in Mnemonic.i_prefetcht1 (widen_addr (a 0)));
   mkB "prefetcht2" (fun v => let (o, a, r, n, e, s) := v in Mnemonic32.i_prefetcht2 (a 0))
     (fun v => let (o, a, r, n, e, s) := v in Mnemonic.i_prefetcht2 (widen_addr (a 0)));
   mkB "prefetchw" (fun v => let (o, a, r, n, e, s) := v in Mnemonic32.i_prefetchw (a 0))
     (fun v => let (o, a, r, n, e, s) := v in Mnemonic.i_prefetchw (widen_addr (a 0)));
   mkB "prefetchwt1" (fun v => let (o, a, r, n, e, s) := v in Mnemonic32.i_prefetchwt1 (a 0))
     (fun v => let (o, a, r, n, e, s) := v in Mnemonic.i_prefetchwt1 (widen_addr (a 0)));
   mkB "psadbw" (fun v => let (o, a, r, n, e, s) := v in Mnemonic32.i_psadbw (r 0) (o 1))
     (fun v => let (o, a, r, n, e, s) := v in Mnemonic.i_psadbw (r 0) (widen_op (o 1)));
   mkB "pshufb" (fun v => let (o, a, r, n, e, s) := v in Mnemonic32.i_pshufb (r 0) (o 1))
     (fun v => let (o, a, r, n, e, s) := v in Mnemonic.i_pshufb (r 0) (widen_op (o 1)));
   mkB "pshufd" (fun v => let (o, a, r, n, e, s) := v in Mnemonic32.i_pshufd (r 0) (o 1) (n 2))
     (fun v => let (o, a, r, n, e, s) := v in Mnemonic.i_pshufd (r 0) (widen_op (o 1)) (n 2));
   mkB "pshufhw" (fun v => let (o, a, r, n, e, s) := v in Mnemonic32.i_pshufhw (r 0) (o 1) (n 2))
     (fun v => let (o, a, r, n, e, s) := v in Mnemonic.i_pshufhw (r 0) (widen_op (o 1)) (n 2));
   mkB "pshuflw" (fun v => let (o, a, r, n, e, s) := v in Mnemonic32.i_pshuflw (r 0) (o 1) (n 2))
     (fun v => let (o, a, r, n, e, s) := v in Mnemonic.i_pshuflw (r 0) (widen_op (o 1)) (n 2));
   mkB "pshufw" (fun v => let (o, a, r, n, e, s) := v in Mnemonic32.i_pshufw (r 0) (o 1) (n 2))
     (fun v => let (o, a, r, n, e, s) := v in Mnemonic.i_pshufw (r 0) (widen_op (o 1)) (n 2));
   mkB "psignb" (fun v => let (o, a, r, n, e, s) := v in Mnemonic32.i_psignb (r 0) (o 1))
     (fun v => let (o, a, r, n, e, s) := v in Mnemonic.i_psignb (r 0) (widen_op (o 1)))].
Lemma sims22_ok : Forall same sims22.
Proof. unfold sims22.
srow_. { unfold Mnemonic32.i_pmovzxwq, Mnemonic.i_pmovzxwq. row_sim. }
srow_. { unfold Mnemonic32.i_pmuldq, Mnemonic.i_pmuldq. row_sim. }
srow_. { unfold Mnemonic32.i_pmulhrsw, Mnemonic.i_pmulhrsw. row_sim. }
srow_. { unfold Mnemonic32.i_pmulhuw, Mnemonic.i_pmulhuw. row_sim. }
srow_. { unfold Mnemonic32.i_pmulhw, Mnemonic.i_pmulhw. row_sim. }
srow_. { unfold Mnemonic32.i_pmulld, Mnemonic.i_pmulld. row_sim. }
srow_. { unfold Mnemonic32.i_pmullw, Mnemonic.i_pmullw. row_sim. }
srow_. { unfold Mnemonic32.i_pmuludq, Mnemonic.i_pmuludq. row_sim. }
srow_. { unfold Mnemonic32.i_popcnt, Mnemonic.i_popcnt. row_sim. }
srow_. { unfold Mnemonic32.i_por, Mnemonic.i_por. row_sim. }
row. { unfold Mnemonic32.i_prefetchit0, Mnemonic.i_prefetchit0. row_sim. }
row. { unfold Mnemonic32.i_prefetchit1, Mnemonic.i_prefetchit1. row_sim. }
row. { unfold Mnemonic32.i_prefetchnta, Mnemonic.i_prefetchnta. row_sim. }
row. { unfold Mnemonic32.i_prefetcht0, Mnemonic.i_prefetcht0. row_sim. }
row. { unfold Mnemonic32.i_prefetcht1, Mnemonic.i_prefetcht1. row_sim. }
row. { unfold Mnemonic32.i_prefetcht2, Mnemonic.i_prefetcht2. row_sim. }
row. { unfold Mnemonic32.i_prefetchw, Mnemonic.i_prefetchw. row_sim. }
row. { unfold Mnemonic32.i_prefetchwt1, Mnemonic.i_prefetchwt1. row_sim. }
srow_. { unfold Mnemonic32.i_psadbw, Mnemonic.i_psadbw. row_sim. }
srow_. { unfold Mnemonic32.i_pshufb, Mnemonic.i_pshufb. row_sim. }
srow_. { unfold Mnemonic32.i_pshufd, Mnemonic.i_pshufd. row_sim. }
srow_. { unfold Mnemonic32.i_pshufhw, Mnemonic.i_pshufhw. row_sim. }
srow_. { unfold Mnemonic32.i_pshuflw, Mnemonic.i_pshuflw. row_sim. }
srow_. { unfold Mnemonic32.i_pshufw, Mnemonic.i_pshufw. row_sim. }
srow_. { unfold Mnemonic32.i_psignb, Mnemonic.i_psignb. row_sim. }
apply Forall_nil. Qed.
Definition sims23 : list b_entry :=
  [mkB "psignd" (fun v => let (o, a, r, n, e, s) := v in Mnemonic32.i_psignd (r 0) (o 1))
     (fun v => let (o, a, r, n, e, s) := v in Mnemonic.i_psignd (r 0) (widen_op (o 1)));
   mkB "psignw" (fun v => let (o, a, r, n, e, s) := v in Mnemonic32.i_psignw (r 0) (o 1))
     (fun v => let (o, a, r, n, e, s) := v in Mnemonic.i_psignw (r 0) (widen_op (o 1)));
   mkB "pslld_mo" (fun v => let (o, a, r, n, e, s) := v in Mnemonic32.i_pslld_mo (r 0) (o 1))
     (fun v => let (o, a, r, n, e, s) := v in Mnemonic.i_pslld_mo (r 0) (widen_op (o 1)));
   mkB "pslld_mi" (fun v => let (o, a, r, n, e, s) := v in Mnemonic32.i_pslld_mi (r 0) (n 1))
     (fun v => let (o, a, r, n, e, s) := v in Mnemonic.i_pslld_mi (r 0) (n 1));
   mkB "pslldq" (fun v => let (o, a, r, n, e, s) := v in Mnemonic32.i_pslldq (r 0) (n 1))
     (fun v => let (o, a, r, n, e, s) := v in Mnemonic.i_pslldq (r 0) (n 1));
   mkB "psllq_mo" (fun v => let (o, a, r, n, e, s) := v in Mnemonic32.i_psllq_mo (r 0) (o 1))
     (fun v => let (o, a, r, n, e, s) := v in Mnemonic.i_psllq_mo (r 0) (widen_op (o 1)));
   mkB "psllq_mi" (fun v => let (o, a, r, n, e, s) := v in Mnemonic32.i_psllq_mi (r 0) (n 1))
     (fun v => let (o, a, r, n, e, s) := v in Mnemonic.i_psllq_mi (r 0) (n 1));
   mkB "psllw_mo" (fun v => let (o, a, r, n, e, s) := v in Mnemonic32.i_psllw_mo (r 0) (o 1))
     (fun v => let (o, a, r, n, e, s) := v in Mnemonic.i_psllw_mo (r 0) (widen_op (o 1)));
   mkB "psllw_mi" (fun v => let (o, a, r, n, e, s) := v in Mnemonic32.i_psllw_mi (r 0) (n 1))
     (fun v => let (o, a, r, n, e, s) := v in Mnemonic.i_psllw_mi (r 0) (n 1));
   mkB "psrad_mo" (fun v => let (o, a, r, n, e, s) := v in Mnemonic32.i_psrad_mo (r 0) (o 1))
     (fun v => let (o, a, r, n, e, s) := v in Mnemonic.i_psrad_mo (r 0) (widen_op (o 1)));
   mkB "psrad_mi" (fun v => let (o, a, r, n, e, s) := v in Mnemonic32.i_psrad_mi (r 0) (n 1))
     (fun v => let (o, a, r, n, e, s) := v in Mnemonic.i_psrad_mi (r 0) (n 1));
   mkB "psraw_mo" (fun v => let (o, a, r, n, e, s) := v in Mnemonic32.i_psraw_mo (r 0) (o 1))
     (fun v => let (o, a, r, n, e, s) := v in Mnemonic.i_psraw_mo (r 0) (widen_op (o 1)));
   mkB "psraw_mi" (fun v => let (o, a, r, n, e, s) := v in Mnemonic32.i_psraw_mi (r 0) (n 1))
     (fun v => let (o, a, r, n, e, s) := v in Mnemonic.i_psraw_mi (r 0) (n 1));
   mkB "psrld_mo" (fun v => let (o, a, r, n, e, s) := v in Mnemonic32.i_psrld_mo (r 0) (o 1))
     (fun v => let (o, a, r, n, e, s) := v in Mnemonic.i_psrld_mo (r 0) (widen_op (o 1)));
   mkB "psrld_mi" (fun v => let (o, a, r, n, e, s) := v in Mnemonic32.i_psrld_mi (r 0) (n 1))
     (fun v => let (o, a, r, n, e, s) := v in Mnemonic.i_psrld_mi (r 0) (n 1));
   mkB "psrldq" (fun v => let (o, a, r, n, e, s) := v in Mnemonic32.i_psrldq (r 0) (n 1))
     (fun v => let (o, a, r, n, e, s) := v in Mnemonic.i_psrldq (r 0) (n 1));
   mkB "psrlq_mo" (fun v => let (o, a, r, n, e, s) := v in Mnemonic32.i_psrlq_mo (r 0) (o 1))
     (fun v => let (o, a, r, n, e, s) := v in Mnemonic.i_psrlq_mo (r 0) (widen_op (o 1)));
   mkB "psrlq_mi" (fun v => let (o, a, r, n, e, s) := v in Mnemonic32.i_psrlq_mi (r 0) (n 1))
     (fun v => let (o, a, r, n, e, s) := v in Mnemonic.i_psrlq_mi (r 0) (n 1));
   mkB "psrlw_mo" (fun v => let (o, a, r, n, e, s) := v in Mnemonic32.i_psrlw_mo (r 0) (o 1))
     (fun v => let (o, a, r, n, e, s) := v in Mnemonic.i_psrlw_mo (r 0) (widen_op (o 1)));
   mkB "psrlw_mi" (fun v => let (o, a, r, n, e, s) := v in Mnemonic32.i_psrlw_mi (r 0) (n 1))
     (fun v => let (o, a, r, n, e, s) := v in Mnemonic.i_psrlw_mi (r 0) (n 1));
   mkB "psubb" (fun v => let (o, a, r, n, e, s) := v in Mnemonic32.i_psubb (r 0) (o 1))
     (fun v => let (o, a, r, n, e, s) := v in Mnemonic.i_psubb (r 0) (widen_op (o 1)));
   mkB "psubd" (fun v => let (o, a, r, n, e, s) := v in Mnemonic32.i_psubd (r 0) (o 1))
     (fun v => let (o, a, r, n, e, s) := v in Mnemonic.i_psubd (r 0) (widen_op (o 1)));
   mkB "psubq" (fun v => let (o, a, r, n, e, s) := v in Mnemonic32.i_psubq (r 0) (o 1))
     (fun v => let (o, a, r, n, e, s) := v in Mnemonic.i_psubq (r 0) (widen_op (o 1)));
   mkB "psubsb" (fun v => let (o, a, r, n, e, s) := v in Mnemonic32.i_psubsb (r 0) (o 1))
     (fun v => let (o, a, r, n, e, s) := v in Mnemonic.i_psubsb (r 0) (widen_op (o 1)));
   mkB "psubsw" (fun v => let (o, a, r, n, e, s) := v in Mnemonic32.i_psubsw (r 0) (o 1))
     (fun v => let (o, a, r, n, e, s) := v in Mnemonic.i_psubsw (r 0) (widen_op (o 1)))].
Lemma sims23_ok : Forall same sims23.
Proof. unfold sims23.
srow_. { unfold Mnemonic32.i_psignd, Mnemonic.i_psignd. row_sim. }
srow_. { unfold Mnemonic32.i_psignw, Mnemonic.i_psignw. row_sim. }
srow_. { unfold Mnemonic32.i_pslld_mo, Mnemonic.i_pslld_mo. row_sim. }
row. { unfold Mnemonic32.i_pslld_mi, Mnemonic.i_pslld_mi. row_sim. }
row. { unfold Mnemonic32.i_pslldq, Mnemonic.i_pslldq. row_sim. }
srow_. { unfold Mnemonic32.i_psllq_mo, Mnemonic.i_psllq_mo. row_sim. }
row. { unfold Mnemonic32.i_psllq_mi, Mnemonic.i_psllq_mi. row_sim. }
srow_. { unfold Mnemonic32.i_psllw_mo, Mnemonic.i_psllw_mo. row_sim. }
row. { unfold Mnemonic32.i_psllw_mi, Mnemonic.i_psllw_mi. row_sim. }
srow_. { unfold Mnemonic32.i_psrad_mo, Mnemonic.i_psrad_mo. row_sim. }
row. { unfold Mnemonic32.i_psrad_mi, Mnemonic.i_psrad_mi. row_sim. }
srow_. { unfold Mnemonic32.i_psraw_mo, Mnemonic.i_psraw_mo. row_sim. }
row. { unfold Mnemonic32.i_psraw_mi, Mnemonic.i_psraw_mi. row_sim. }
srow_. { unfold Mnemonic32.i_psrld_mo, Mnemonic.i_psrld_mo. row_sim. }
row. { unfold Mnemonic32.i_psrld_mi, Mnemonic.i_psrld_mi. row_sim. }
row. { unfold Mnemonic32.i_psrldq, Mnemonic.i_psrldq. row_sim. }
srow_. { unfold Mnemonic32.i_psrlq_mo, Mnemonic.i_psrlq_mo. row_sim. }
row. { unfold Mnemonic32.i_psrlq_mi, Mnemonic.i_psrlq_mi. row_sim. }
srow_. { unfold Mnemonic32.i_psrlw_mo, Mnemonic.i_psrlw_mo. row_sim. }
row. { unfold Mnemonic32.i_psrlw_mi, Mnemonic.i_psrlw_mi. row_sim. }
srow_. { unfold Mnemonic32.i_psubb, Mnemonic.i_psubb. row_sim. }
srow_. { unfold Mnemonic32.i_psubd, Mnemonic.i_psubd. row_sim. }
srow_. { unfold Mnemonic32.i_psubq, Mnemonic.i_psubq. row_sim. }
srow_. { unfold Mnemonic32.i_psubsb, Mnemonic.i_psubsb. row_sim. }
srow_. { unfold Mnemonic32.i_psubsw, Mnemonic.i_psubsw. row_sim. }
apply Forall_nil. Qed.
Definition sims24 : list b_entry :=
  [mkB "psubusb" (fun v => let (o, a, r, n, e, s) := v in Mnemonic32.i_psubusb (r 0) (o 1))
     (fun v => let (o, a, r, n, e, s) := v in Mnemonic.i_psubusb (r 0) (widen_op (o 1)));
   mkB "psubusw" (fun v => let (o, a, r, n, e, s) := v in Mnemonic32.i_psubusw (r 0) (o 1))
     (fun v => let (o, a, r, n, e, s) := v in Mnemonic.i_psubusw (r 0) (widen_op (o 1)));
   mkB "psubw" (fun v => let (o, a, r, n, e, s) := v in Mnemonic32.i_psubw (r 0) (o 1))
     (fun v => let (o, a, r, n, e, s) := v in Mnemonic.i_psubw (r 0) (widen_op (o 1)));
   mkB "ptest" (fun v => let (o, a, r, n, e, s) := v in Mnemonic32.i_ptest (r 0) (o 1))
     (fun v => let (o, a, r, n, e, s) := v in Mnemonic.i_ptest (r 0) (widen_op (o 1)));
   mkB "punpckhbw" (fun v => let (o, a, r, n, e, s) := v in Mnemonic32.i_punpckhbw (r 0) (o 1))
     (fun v => let (o, a, r, n, e, s) := v in Mnemonic.i_punpckhbw (r 0) (widen_op (o 1)));
   mkB "punpckhdq" (fun v => let (o, a, r, n, e, s) := v in Mnemonic32.i_punpckhdq (r 0) (o 1))
     (fun v => let (o, a, r, n, e, s) := v in Mnemonic.i_punpckhdq (r 0) (widen_op (o 1)));
   mkB "punpckhqdq" (fun v => let (o, a, r, n, e, s) := v in Mnemonic32.i_punpckhqdq (r 0) (o 1))
     (fun v => let (o, a, r, n, e, s) := v in Mnemonic.i_punpckhqdq (r 0) (widen_op (o 1)));
   mkB "punpckhwd" (fun v => let (o, a, r, n, e, s) := v in Mnemonic32.i_punpckhwd (r 0) (o 1))
     (fun v => let (o, a, r, n, e, s) := v in Mnemonic.i_punpckhwd (r 0) (widen_op (o 1)));
   mkB "punpcklbw" (fun v => let (o, a, r, n, e, s) := v in Mnemonic32.i_punpcklbw (r 0) (o 1))
     (fun v => let (o, a, r, n, e, s) := v in Mnemonic.i_punpcklbw (r 0) (widen_op (o 1)));
   mkB "punpckldq" (fun v => let (o, a, r, n, e, s) := v in Mnemonic32.i_punpckldq (r 0) (o 1))
     (fun v => let (o, a, r, n, e, s) := v in Mnemonic.i_punpckldq (r 0) (widen_op (o 1)));
   mkB "punpcklqdq" (fun v => let (o, a, r, n, e, s) := v in Mnemonic32.i_punpcklqdq (r 0) (o 1))
     (fun v => let (o, a, r, n, e, s) := v in Mnemonic.i_punpcklqdq (r 0) (widen_op (o 1)));
   mkB "punpcklwd" (fun v => let (o, a, r, n, e, s) := v in Mnemonic32.i_punpcklwd (r 0) (o 1))
     (fun v => let (o, a, r, n, e, s) := v in Mnemonic.i_punpcklwd (r 0) (widen_op (o 1)));
   mkB "pxor" (fun v => let (o, a, r, n, e, s) := v in Mnemonic32.i_pxor (r 0) (o 1))
     (fun v => let (o, a, r, n, e, s) := v in Mnemonic.i_pxor (r 0) (widen_op (o 1)));
   mkB "rcl_ob" (fun v => let (o, a, r, n, e, s) := v in Mnemonic32.i_rcl_ob (o 0) (r 1))
     (fun v => let (o, a, r, n, e, s) := v in Mnemonic.i_rcl_ob (widen_op (o 0)) (r 1));
   mkB "rcl_oi" (fun v => let (o, a, r, n, e, s) := v in Mnemonic32.i_rcl_oi (o 0) (n 1))
     (fun v => let (o, a, r, n, e, s) := v in Mnemonic.i_rcl_oi (widen_op (o 0)) (n 1));
   mkB "rcl_rob" (fun v => let (o, a, r, n, e, s) := v in Mnemonic32.i_rcl_rob (r 0) (o 1) (r 2))
     (fun v => let (o, a, r, n, e, s) := v in Mnemonic.i_rcl_rob (r 0) (widen_op (o 1)) (r 2));
   mkB "rcl_roi" (fun v => let (o, a, r, n, e, s) := v in Mnemonic32.i_rcl_roi (r 0) (o 1) (n 2))
     (fun v => let (o, a, r, n, e, s) := v in Mnemonic.i_rcl_roi (r 0) (widen_op (o 1)) (n 2));
   mkB "rcpps" (fun v => let (o, a, r, n, e, s) := v in Mnemonic32.i_rcpps (r 0) (o 1))
     (fun v => let (o, a, r, n, e, s) := v in Mnemonic.i_rcpps (r 0) (widen_op (o 1)));
   mkB "rcpss" (fun v => let (o, a, r, n, e, s) := v in Mnemonic32.i_rcpss (r 0) (o 1))
     (fun v => let (o, a, r, n, e, s) := v in Mnemonic.i_rcpss (r 0) (widen_op (o 1)));
   mkB "rcr_ob" (fun v => let (o, a, r, n, e, s) := v in Mnemonic32.i_rcr_ob (o 0) (r 1))
     (fun v => let (o, a, r, n, e, s) := v in Mnemonic.i_rcr_ob (widen_op (o 0)) (r 1));
   mkB "rcr_oi" (fun v => let (o, a, r, n, e, s) := v in Mnemonic32.i_rcr_oi (o 0) (n 1))
     (fun v => let (o, a, r, n, e, s) := v in Mnemonic.i_rcr_oi (widen_op (o 0)) (n 1));
   mkB "rcr_rob" (fun v => let (o, a, r, n, e, s) := v in Mnemonic32.i_rcr_rob (r 0) (o 1) (r 2))
     (fun v => let (o, a, r, n, e, s) := v in Mnemonic.i_rcr_rob (r 0) (widen_op (o 1)) (r 2));
   mkB "rcr_roi" (fun v => let (o, a, r, n, e, s) := v in Mnemonic32.i_rcr_roi (r 0) (o 1) (n 2))
     (fun v => let (o, a, r, n, e, s) := v in Mnemonic.i_rcr_roi (r 0) (widen_op (o 1)) (n 2));
   mkB "rdrand" (fun v => let (o, a, r, n, e, s) := v in Mnemonic32.i_rdrand (r 0))
     (fun v => let (o, a, r, n, e, s) := v in Mnemonic.i_rdrand (r 0));
   mkB "rdseed" (fun v => let (o, a, r, n, e, s) := v in Mnemonic32.i_rdseed (r 0))
     (fun v => let (o, a, r, n, e, s) := v in Mnemonic.i_rdseed (r 0))].
Lemma sims24_ok : Forall same sims24.
Proof. unfold sims24.
srow_. { unfold Mnemonic32.i_psubusb, Mnemonic.i_psubusb. row_sim. }
srow_. { unfold Mnemonic32.i_psubusw, Mnemonic.i_psubusw. row_sim. }
srow_. { unfold Mnemonic32.i_psubw, Mnemonic.i_psubw. row_sim. }
srow_. { unfold Mnemonic32.i_ptest, Mnemonic.i_ptest. row_sim. }
srow_. { unfold Mnemonic32.i_punpckhbw, Mnemonic.i_punpckhbw. row_sim. }
srow_. { unfold Mnemonic32.i_punpckhdq, Mnemonic.i_punpckhdq. row_sim. }
srow_. { unfold Mnemonic32.i_punpckhqdq, Mnemonic.i_punpckhqdq. row_sim. }
srow_. { unfold Mnemonic32.i_punpckhwd, Mnemonic.i_punpckhwd. row_sim. }
srow_. { unfold Mnemonic32.i_punpcklbw, Mnemonic.i_punpcklbw. row_sim. }
srow_. { unfold Mnemonic32.i_punpckldq, Mnemonic.i_punpckldq. row_sim. }
srow_. { unfold Mnemonic32.i_punpcklqdq, Mnemonic.i_punpcklqdq. row_sim. }
srow_. { unfold Mnemonic32.i_punpcklwd, Mnemonic.i_punpcklwd. row_sim. }
srow_. { unfold Mnemonic32.i_pxor, Mnemonic.i_pxor. row_sim. }
row. { unfold Mnemonic32.i_rcl_ob, Mnemonic.i_rcl_ob. row_sim. }
row. { unfold Mnemonic32.i_rcl_oi, Mnemonic.i_rcl_oi. row_sim. }
row. { unfold Mnemonic32.i_rcl_rob, Mnemonic.i_rcl_rob. row_sim. }
row. { unfold Mnemonic32.i_rcl_roi, Mnemonic.i_rcl_roi. row_sim. }
srow_. { unfold Mnemonic32.i_rcpps, Mnemonic.i_rcpps. row_sim. }
srow_. { unfold Mnemonic32.i_rcpss, Mnemonic.i_rcpss. row_sim. }
row. { unfold Mnemonic32.i_rcr_ob, Mnemonic.i_rcr_ob. row_sim. }
row. { unfold Mnemonic32.i_rcr_oi, Mnemonic.i_rcr_oi. row_sim. }
row. { unfold Mnemonic32.i_rcr_rob, Mnemonic.i_rcr_rob. row_sim. }
row. { unfold Mnemonic32.i_rcr_roi, Mnemonic.i_rcr_roi. row_sim. }
row. { unfold Mnemonic32.i_rdrand, Mnemonic.i_rdrand. row_sim. }
row. { unfold Mnemonic32.i_rdseed, Mnemonic.i_rdseed. row_sim. }
apply Forall_nil. Qed.
Definition sims25 : list b_entry :=
  [mkB "rol_ob" (fun v => let (o, a, r, n, e, s) := v in Mnemonic32.i_rol_ob (o 0) (r 1))
     (fun v => let (o, a, r, n, e, s) := v in Mnemonic.i_rol_ob (widen_op (o 0)) (r 1));
   mkB "rol_oi" (fun v => let (o, a, r, n, e, s) := v in Mnemonic32.i_rol_oi (o 0) (n 1))
     (fun v => let (o, a, r, n, e, s) := v in Mnemonic.i_rol_oi (widen_op (o 0)) (n 1));
   mkB "rol_rob" (fun v => let (o, a, r, n, e, s) := v in Mnemonic32.i_rol_rob (r 0) (o 1) (r 2))
     (fun v => let (o, a, r, n, e, s) := v in Mnemonic.i_rol_rob (r 0) (widen_op (o 1)) (r 2));
   mkB "rol_roi" (fun v => let (o, a, r, n, e, s) := v in Mnemonic32.i_rol_roi (r 0) (o 1) (n 2))
     (fun v => let (o, a, r, n, e, s) := v in Mnemonic.i_rol_roi (r 0) (widen_op (o 1)) (n 2));
   mkB "ror_ob" (fun v => let (o, a, r, n, e, s) := v in Mnemonic32.i_ror_ob (o 0) (r 1))
     (fun v => let (o, a, r, n, e, s) := v in Mnemonic.i_ror_ob (widen_op (o 0)) (r 1));
   mkB "ror_oi" (fun v => let (o, a, r, n, e, s) := v in Mnemonic32.i_ror_oi (o 0) (n 1))
     (fun v => let (o, a, r, n, e, s) := v in Mnemonic.i_ror_oi (widen_op (o 0)) (n 1));
   mkB "ror_rob" (fun v => let (o, a, r, n, e, s) := v in Mnemonic32.i_ror_rob (r 0) (o 1) (r 2))
     (fun v => let (o, a, r, n, e, s) := v in Mnemonic.i_ror_rob (r 0) (widen_op (o 1)) (r 2));
   mkB "ror_roi" (fun v => let (o, a, r, n, e, s) := v in Mnemonic32.i_ror_roi (r 0) (o 1) (n 2))
     (fun v => let (o, a, r, n, e, s) := v in Mnemonic.i_ror_roi (r 0) (widen_op (o 1)) (n 2));
   mkB "rorx" (fun v => let (o, a, r, n, e, s) := v in Mnemonic32.i_rorx (r 0) (o 1) (n 2))
     (fun v => let (o, a, r, n, e, s) := v in Mnemonic.i_rorx (r 0) (widen_op (o 1)) (n 2));
   mkB "roundpd" (fun v => let (o, a, r, n, e, s) := v in Mnemonic32.i_roundpd (r 0) (o 1) (n 2))
     (fun v => let (o, a, r, n, e, s) := v in Mnemonic.i_roundpd (r 0) (widen_op (o 1)) (n 2));
   mkB "roundps" (fun v => let (o, a, r, n, e, s) := v in Mnemonic32.i_roundps (r 0) (o 1) (n 2))
     (fun v => let (o, a, r, n, e, s) := v in Mnemonic.i_roundps (r 0) (widen_op (o 1)) (n 2));
   mkB "roundsd" (fun v => let (o, a, r, n, e, s) := v in Mnemonic32.i_roundsd (r 0) (o 1) (n 2))
     (fun v => let (o, a, r, n, e, s) := v in Mnemonic.i_roundsd (r 0) (widen_op (o 1)) (n 2));
   mkB "roundss" (fun v => let (o, a, r, n, e, s) := v in Mnemonic32.i_roundss (r 0) (o 1) (n 2))
     (fun v => let (o, a, r, n, e, s) := v in Mnemonic.i_roundss (r 0) (widen_op (o 1)) (n 2));
   mkB "rsqrtps" (fun v => let (o, a, r, n, e, s) := v in Mnemonic32.i_rsqrtps (r 0) (o 1))
     (fun v => let (o, a, r, n, e, s) := v in Mnemonic.i_rsqrtps (r 0) (widen_op (o 1)));
   mkB "rsqrtss" (fun v => let (o, a, r, n, e, s) := v in Mnemonic32.i_rsqrtss (r 0) (o 1))
     (fun v => let (o, a, r, n, e, s) := v in Mnemonic.i_rsqrtss (r 0) (widen_op (o 1)));
   mkB "sal_ob" (fun v => let (o, a, r, n, e, s) := v in Mnemonic32.i_sal_ob (o 0) (r 1))
     (fun v => let (o, a, r, n, e, s) := v in Mnemonic.i_sal_ob (widen_op (o 0)) (r 1));
   mkB "sal_oi" (fun v => let (o, a, r, n, e, s) := v in Mnemonic32.i_sal_oi (o 0) (n 1))
     (fun v => let (o, a, r, n, e, s) := v in Mnemonic.i_sal_oi (widen_op (o 0)) (n 1));
   mkB "sal_rob" (fun v => let (o, a, r, n, e, s) := v in Mnemonic32.i_sal_rob (r 0) (o 1) (r 2))
     (fun v => let (o, a, r, n, e, s) := v in Mnemonic.i_sal_rob (r 0) (widen_op (o 1)) (r 2));
   mkB "sal_roi" (fun v => let (o, a, r, n, e, s) := v in Mnemonic32.i_sal_roi (r 0) (o 1) (n 2))
     (fun v => let (o, a, r, n, e, s) := v in Mnemonic.i_sal_roi (r 0) (widen_op (o 1)) (n 2));
   mkB "sar_ob" (fun v => let (o, a, r, n, e, s) := v in Mnemonic32.i_sar_ob (o 0) (r 1))
     (fun v => let (o, a, r, n, e, s) := v in Mnemonic.i_sar_ob (widen_op (o 0)) (r 1));
   mkB "sar_oi" (fun v => let (o, a, r, n, e, s) := v in Mnemonic32.i_sar_oi (o 0) (n 1))
     (fun v => let (o, a, r, n, e, s) := v in Mnemonic.i_sar_oi (widen_op (o 0)) (n 1));
   mkB "sar_rob" (fun v => let (o, a, r, n, e, s) := v in Mnemonic32.i_sar_rob (r 0) (o 1) (r 2))
     (fun v => let (o, a, r, n, e, s) := v in Mnemonic.i_sar_rob (r 0) (widen_op (o 1)) (r 2));
   mkB "sar_roi" (fun v => let (o, a, r, n, e, s) := v in Mnemonic32.i_sar_roi (r 0) (o 1) (n 2))
     (fun v => let (o, a, r, n, e, s) := v in Mnemonic.i_sar_roi (r 0) (widen_op (o 1)) (n 2));
   mkB "sarx" (fun v => let (o, a, r, n, e, s) := v in Mnemonic32.i_sarx (r 0) (o 1) (r 2))
     (fun v => let (o, a, r, n, e, s) := v in Mnemonic.i_sarx (r 0) (widen_op (o 1)) (r 2));
   mkB "sbb_oi" (fun v => let (o, a, r, n, e, s) := v in Mnemonic32.i_sbb_oi (o 0) (n 1))
     (fun v => let (o, a, r, n, e, s) := v in Mnemonic.i_sbb_oi (widen_op (o 0)) (n 1))].
Lemma sims25_ok : Forall same sims25.
Proof. unfold sims25.
row. { unfold Mnemonic32.i_rol_ob, Mnemonic.i_rol_ob. row_sim. }
row. { unfold Mnemonic32.i_rol_oi, Mnemonic.i_rol_oi. row_sim. }
row. { unfold Mnemonic32.i_rol_rob, Mnemonic.i_rol_rob. row_sim. }
row. { unfold Mnemonic32.i_rol_roi, Mnemonic.i_rol_roi. row_sim. }
row. { unfold Mnemonic32.i_ror_ob, Mnemonic.i_ror_ob. row_sim. }
row. { unfold Mnemonic32.i_ror_oi, Mnemonic.i_ror_oi. row_sim. }
row. { unfold Mnemonic32.i_ror_rob, Mnemonic.i_ror_rob. row_sim. }
row. { unfold Mnemonic32.i_ror_roi, Mnemonic.i_ror_roi. row_sim. }
row. { unfold Mnemonic32.i_rorx, Mnemonic.i_rorx. row_sim. }
srow_. { unfold Mnemonic32.i_roundpd, Mnemonic.i_roundpd. row_sim. }
srow_. { unfold Mnemonic32.i_roundps, Mnemonic.i_roundps. row_sim. }
srow_. { unfold Mnemonic32.i_roundsd, Mnemonic.i_roundsd. row_sim. }
srow_. { unfold Mnemonic32.i_roundss, Mnemonic.i_roundss. row_sim. }
srow_. { unfold Mnemonic32.i_rsqrtps, Mnemonic.i_rsqrtps. row_sim. }
srow_. { unfold Mnemonic32.i_rsqrtss, Mnemonic.i_rsqrtss. row_sim. }
row. { unfold Mnemonic32.i_sal_ob, Mnemonic.i_sal_ob. row_sim. }
row. { unfold Mnemonic32.i_sal_oi, Mnemonic.i_sal_oi. row_sim. }
row. { unfold Mnemonic32.i_sal_rob, Mnemonic.i_sal_rob. row_sim. }
row. { unfold Mnemonic32.i_sal_roi, Mnemonic.i_sal_roi. row_sim. }
row. { unfold Mnemonic32.i_sar_ob, Mnemonic.i_sar_ob. row_sim. }
row. { unfold Mnemonic32.i_sar_oi, Mnemonic.i_sar_oi. row_sim. }
row. { unfold Mnemonic32.i_sar_rob, Mnemonic.i_sar_rob. row_sim. }
row. { unfold Mnemonic32.i_sar_roi, Mnemonic.i_sar_roi. row_sim. }
row. { unfold Mnemonic32.i_sarx, Mnemonic.i_sarx. row_sim. }
row. { unfold Mnemonic32.i_sbb_oi, Mnemonic.i_sbb_oi. row_sim. }
apply Forall_nil. Qed.
Definition sims26 : list b_entry :=
  [mkB "sbb_oo" (fun v => let (o, a, r, n, e, s) := v in Mnemonic32.i_sbb_oo (o 0) (o 1))
     (fun v => let (o, a, r, n, e, s) := v in Mnemonic.i_sbb_oo (widen_op (o 0)) (widen_op (o 1)));
   mkB "sbb_roi" (fun v => let (o, a, r, n, e, s) := v in Mnemonic32.i_sbb_roi (r 0) (o 1) (n 2))
     (fun v => let (o, a, r, n, e, s) := v in Mnemonic.i_sbb_roi (r 0) (widen_op (o 1)) (n 2));
   mkB "sbb_roo" (fun v => let (o, a, r, n, e, s) := v in Mnemonic32.i_sbb_roo (r 0) (o 1) (o 2))
     (fun v => let (o, a, r, n, e, s) := v in Mnemonic.i_sbb_roo (r 0) (widen_op (o 1)) (widen_op (o 2)));
   mkB "seta" (fun v => let (o, a, r, n, e, s) := v in Mnemonic32.i_seta (o 0))
     (fun v => let (o, a, r, n, e, s) := v in Mnemonic.i_seta (widen_op (o 0)));
   mkB "setae" (fun v => let (o, a, r, n, e, s) := v in Mnemonic32.i_setae (o 0))
     (fun v => let (o, a, r, n, e, s) := v in Mnemonic.i_setae (widen_op (o 0)));
   mkB "setb" (fun v => let (o, a, r, n, e, s) := v in Mnemonic32.i_setb (o 0))
     (fun v => let (o, a, r, n, e, s) := v in Mnemonic.i_setb (widen_op (o 0)));
   mkB "setbe" (fun v => let (o, a, r, n, e, s) := v in Mnemonic32.i_setbe (o 0))
     (fun v => let (o, a, r, n, e, s) := v in Mnemonic.i_setbe (widen_op (o 0)));
   mkB "setc" (fun v => let (o, a, r, n, e, s) := v in Mnemonic32.i_setc (o 0))
     (fun v => let (o, a, r, n, e, s) := v in Mnemonic.i_setc (widen_op (o 0)));
   mkB "sete" (fun v => let (o, a, r, n, e, s) := v in Mnemonic32.i_sete (o 0))
     (fun v => let (o, a, r, n, e, s) := v in Mnemonic.i_sete (widen_op (o 0)));
   mkB "setg" (fun v => let (o, a, r, n, e, s) := v in Mnemonic32.i_setg (o 0))
     (fun v => let (o, a, r, n, e, s) := v in Mnemonic.i_setg (widen_op (o 0)));
   mkB "setge" (fun v => let (o, a, r, n, e, s) := v in Mnemonic32.i_setge (o 0))
     (fun v => let (o, a, r, n, e, s) := v in Mnemonic.i_setge (widen_op (o 0)));
   mkB "setl" (fun v => let (o, a, r, n, e, s) := v in Mnemonic32.i_setl (o 0))
     (fun v => let (o, a, r, n, e, s) := v in Mnemonic.i_setl (widen_op (o 0)));
   mkB "setle" (fun v => let (o, a, r, n, e, s) := v in Mnemonic32.i_setle (o 0))
     (fun v => let (o, a, r, n, e, s) := v in Mnemonic.i_setle (widen_op (o 0)));
   mkB "setna" (fun v => let (o, a, r, n, e, s) := v in Mnemonic32.i_setna (o 0))
     (fun v => let (o, a, r, n, e, s) := v in Mnemonic.i_setna (widen_op (o 0)));
   mkB "setnae" (fun v => let (o, a, r, n, e, s) := v in Mnemonic32.i_setnae (o 0))
     (fun v => let (o, a, r, n, e, s) := v in Mnemonic.i_setnae (widen_op (o 0)));
   mkB "setnb" (fun v => let (o, a, r, n, e, s) := v in Mnemonic32.i_setnb (o 0))
     (fun v => let (o, a, r, n, e, s) := v in Mnemonic.i_setnb (widen_op (o 0)));
   mkB "setnbe" (fun v => let (o, a, r, n, e, s) := v in Mnemonic32.i_setnbe (o 0))
     (fun v => let (o, a, r, n, e, s) := v in Mnemonic.i_setnbe (widen_op (o 0)));
   mkB "setnc" (fun v => let (o, a, r, n, e, s) := v in Mnemonic32.i_setnc (o 0))
     (fun v => let (o, a, r, n, e, s) := v in Mnemonic.i_setnc (widen_op (o 0)));
   mkB "setne" (fun v => let (o, a, r, n, e, s) := v in Mnemonic32.i_setne (o 0))
     (fun v => let (o, a, r, n, e, s) := v in Mnemonic.i_setne (widen_op (o 0)));
   mkB "setng" (fun v => let (o, a, r, n, e, s) := v in Mnemonic32.i_setng (o 0))
     (fun v => let (o, a, r, n, e, s) := v in Mnemonic.i_setng (widen_op (o 0)));
   mkB "setnge" (fun v => let (o, a, r, n, e, s) := v in Mnemonic32.i_setnge (o 0))
     (fun v => let (o, a, r, n, e, s) := v in Mnemonic.i_setnge (widen_op (o 0)));
   mkB "setnl" (fun v => let (o, a, r, n, e, s) := v in Mnemonic32.i_setnl (o 0))
     (fun v => let (o, a, r, n, e, s) := v in Mnemonic.i_setnl (widen_op (o 0)));
   mkB "setnle" (fun v => let (o, a, r, n, e, s) := v in Mnemonic32.i_setnle (o 0))
     (fun v => let (o, a, r, n, e, s) := v in Mnemonic.i_setnle (widen_op (o 0)));
   mkB "setno" (fun v => let (o, a, r, n, e, s) := v in Mnemonic32.i_setno (o 0))
     (fun v => let (o, a, r, n, e, s) := v in Mnemonic.i_setno (widen_op (o 0)));
   mkB "setnp" (fun v => let (o, a, r, n, e, s) := v in Mnemonic32.i_setnp (o 0))
     (fun v => let (o, a, r, n, e, s) := v in Mnemonic.i_setnp (widen_op (o 0)))].
Lemma sims26_ok : Forall same sims26.
Proof. unfold sims26.
srow_. { unfold Mnemonic32.i_sbb_oo, Mnemonic.i_sbb_oo. row_sim. }
row. { unfold Mnemonic32.i_sbb_roi, Mnemonic.i_sbb_roi. row_sim. }
row. { unfold Mnemonic32.i_sbb_roo, Mnemonic.i_sbb_roo. row_sim. }
row. { unfold Mnemonic32.i_seta, Mnemonic.i_seta. row_sim. }
row. { unfold Mnemonic32.i_setae, Mnemonic.i_setae. row_sim. }
row. { unfold Mnemonic32.i_setb, Mnemonic.i_setb. row_sim. }
row. { unfold Mnemonic32.i_setbe, Mnemonic.i_setbe. row_sim. }
row. { unfold Mnemonic32.i_setc, Mnemonic.i_setc. row_sim. }
row. { unfold Mnemonic32.i_sete, Mnemonic.i_sete. row_sim. }
row. { unfold Mnemonic32.i_setg, Mnemonic.i_setg. row_sim. }
row. { unfold Mnemonic32.i_setge, Mnemonic.i_setge. row_sim. }
row. { unfold Mnemonic32.i_setl, Mnemonic.i_setl. row_sim. }
row. { unfold Mnemonic32.i_setle, Mnemonic.i_setle. row_sim. }
row. { unfold Mnemonic32.i_setna, Mnemonic.i_setna. row_sim. }
row. { unfold Mnemonic32.i_setnae, Mnemonic.i_setnae. row_sim. }
row. { unfold Mnemonic32.i_setnb, Mnemonic.i_setnb. row_sim. }
row. { unfold Mnemonic32.i_setnbe, Mnemonic.i_setnbe. row_sim. }
row. { unfold Mnemonic32.i_setnc, Mnemonic.i_setnc. row_sim. }
row. { unfold Mnemonic32.i_setne, Mnemonic.i_setne. row_sim. }
row. { unfold Mnemonic32.i_setng, Mnemonic.i_setng. row_sim. }
row. { unfold Mnemonic32.i_setnge, Mnemonic.i_setnge. row_sim. }
row. { unfold Mnemonic32.i_setnl, Mnemonic.i_setnl. row_sim. }
row. { unfold Mnemonic32.i_setnle, Mnemonic.i_setnle. row_sim. }
row. { unfold Mnemonic32.i_setno, Mnemonic.i_setno. row_sim. }
row. { unfold Mnemonic32.i_setnp, Mnemonic.i_setnp. row_sim. }
apply Forall_nil. Qed.
Definition sims27 : list b_entry :=
  [mkB "setns" (fun v => let (o, a, r, n, e, s) := v in Mnemonic32.i_setns (o 0))
     (fun v => let (o, a, r, n, e, s) := v in Mnemonic.i_setns (widen_op (o 0)));
   mkB "setnz" (fun v => let (o, a, r, n, e, s) := v in Mnemonic32.i_setnz (o 0))
     (fun v => let (o, a, r, n, e, s) := v in Mnemonic.i_setnz (widen_op (o 0)));
   mkB "seto" (fun v => let (o, a, r, n, e, s) := v in Mnemonic32.i_seto (o 0))
     (fun v => let (o, a, r, n, e, s) := v in Mnemonic.i_seto (widen_op (o 0)));
   mkB "setp" (fun v => let (o, a, r, n, e, s) := v in Mnemonic32.i_setp (o 0))
     (fun v => let (o, a, r, n, e, s) := v in Mnemonic.i_setp (widen_op (o 0)));
   mkB "setpe" (fun v => let (o, a, r, n, e, s) := v in Mnemonic32.i_setpe (o 0))
     (fun v => let (o, a, r, n, e, s) := v in Mnemonic.i_setpe (widen_op (o 0)));
   mkB "setpo" (fun v => let (o, a, r, n, e, s) := v in Mnemonic32.i_setpo (o 0))
     (fun v => let (o, a, r, n, e, s) := v in Mnemonic.i_setpo (widen_op (o 0)));
   mkB "sets" (fun v => let (o, a, r, n, e, s) := v in Mnemonic32.i_sets (o 0))
     (fun v => let (o, a, r, n, e, s) := v in Mnemonic.i_sets (widen_op (o 0)));
   mkB "setz" (fun v => let (o, a, r, n, e, s) := v in Mnemonic32.i_setz (o 0))
     (fun v => let (o, a, r, n, e, s) := v in Mnemonic.i_setz (widen_op (o 0)));
   mkB "sha1msg1" (fun v => let (o, a, r, n, e, s) := v in Mnemonic32.i_sha1msg1 (r 0) (o 1))
     (fun v => let (o, a, r, n, e, s) := v in Mnemonic.i_sha1msg1 (r 0) (widen_op (o 1)));
   mkB "sha1msg2" (fun v => let (o, a, r, n, e, s) := v in Mnemonic32.i_sha1msg2 (r 0) (o 1))
     (fun v => let (o, a, r, n, e, s) := v in Mnemonic.i_sha1msg2 (r 0) (widen_op (o 1)));
   mkB "sha1nexte" (fun v => let (o, a, r, n, e, s) := v in Mnemonic32.i_sha1nexte (r 0) (o 1))
     (fun v => let (o, a, r, n, e, s) := v in Mnemonic.i_sha1nexte (r 0) (widen_op (o 1)));
   mkB "sha1rnds4" (fun v => let (o, a, r, n, e, s) := v in Mnemonic32.i_sha1rnds4 (r 0) (o 1) (n 2))
     (fun v => let (o, a, r, n, e, s) := v in Mnemonic.i_sha1rnds4 (r 0) (widen_op (o 1)) (n 2));
   mkB "sha256msg1" (fun v => let (o, a, r, n, e, s) := v in Mnemonic32.i_sha256msg1 (r 0) (o 1))
     (fun v => let (o, a, r, n, e, s) := v in Mnemonic.i_sha256msg1 (r 0) (widen_op (o 1)));
   mkB "sha256msg2" (fun v => let (o, a, r, n, e, s) := v in Mnemonic32.i_sha256msg2 (r 0) (o 1))
     (fun v => let (o, a, r, n, e, s) := v in Mnemonic.i_sha256msg2 (r 0) (widen_op (o 1)));
   mkB "sha256rnds2" (fun v => let (o, a, r, n, e, s) := v in Mnemonic32.i_sha256rnds2 (r 0) (o 1))
     (fun v => let (o, a, r, n, e, s) := v in Mnemonic.i_sha256rnds2 (r 0) (widen_op (o 1)));
   mkB "shl_ob" (fun v => let (o, a, r, n, e, s) := v in Mnemonic32.i_shl_ob (o 0) (r 1))
     (fun v => let (o, a, r, n, e, s) := v in Mnemonic.i_shl_ob (widen_op (o 0)) (r 1));
   mkB "shl_oi" (fun v => let (o, a, r, n, e, s) := v in Mnemonic32.i_shl_oi (o 0) (n 1))
     (fun v => let (o, a, r, n, e, s) := v in Mnemonic.i_shl_oi (widen_op (o 0)) (n 1));
   mkB "shl_rob" (fun v => let (o, a, r, n, e, s) := v in Mnemonic32.i_shl_rob (r 0) (o 1) (r 2))
     (fun v => let (o, a, r, n, e, s) := v in Mnemonic.i_shl_rob (r 0) (widen_op (o 1)) (r 2));
   mkB "shl_roi" (fun v => let (o, a, r, n, e, s) := v in Mnemonic32.i_shl_roi (r 0) (o 1) (n 2))
     (fun v => let (o, a, r, n, e, s) := v in Mnemonic.i_shl_roi (r 0) (widen_op (o 1)) (n 2));
   mkB "shld_orb" (fun v => let (o, a, r, n, e, s) := v in Mnemonic32.i_shld_orb (o 0) (r 1) (r 2))
     (fun v => let (o, a, r, n, e, s) := v in Mnemonic.i_shld_orb (widen_op (o 0)) (r 1) (r 2));
   mkB "shld_ori" (fun v => let (o, a, r, n, e, s) := v in Mnemonic32.i_shld_ori (o 0) (r 1) (n 2))
     (fun v => let (o, a, r, n, e, s) := v in Mnemonic.i_shld_ori (widen_op (o 0)) (r 1) (n 2));
   mkB "shld_rorb" (fun v => let (o, a, r, n, e, s) := v in Mnemonic32.i_shld_rorb (r 0) (o 1) (r 2) (r 3))
     (fun v => let (o, a, r, n, e, s) := v in Mnemonic.i_shld_rorb (r 0) (widen_op (o 1)) (r 2) (r 3));
   mkB "shld_rori" (fun v => let (o, a, r, n, e, s) := v in Mnemonic32.i_shld_rori (r 0) (o 1) (r 2) (n 3))
     (fun v => let (o, a, r, n, e, s) := v in Mnemonic.i_shld_rori (r 0) (widen_op (o 1)) (r 2) (n 3));
   mkB "shlx" (fun v => let (o, a, r, n, e, s) := v in Mnemonic32.i_shlx (r 0) (o 1) (r 2))
     (fun v => let (o, a, r, n, e, s) := v in Mnemonic.i_shlx (r 0) (widen_op (o 1)) (r 2));
   mkB "shr_ob" (fun v => let (o, a, r, n, e, s) := v in Mnemonic32.i_shr_ob (o 0) (r 1))
     (fun v => let (o, a, r, n, e, s) := v in Mnemonic.i_shr_ob (widen_op (o 0)) (r 1))].
Lemma sims27_ok : Forall same sims27.
Proof. unfold sims27.
row. { unfold Mnemonic32.i_setns, Mnemonic.i_setns. row_sim. }
row. { unfold Mnemonic32.i_setnz, Mnemonic.i_setnz. row_sim. }
row. { unfold Mnemonic32.i_seto, Mnemonic.i_seto. row_sim. }
row. { unfold Mnemonic32.i_setp, Mnemonic.i_setp. row_sim. }
row. { unfold Mnemonic32.i_setpe, Mnemonic.i_setpe. row_sim. }
row. { unfold Mnemonic32.i_setpo, Mnemonic.i_setpo. row_sim. }
row. { unfold Mnemonic32.i_sets, Mnemonic.i_sets. row_sim. }
row. { unfold Mnemonic32.i_setz, Mnemonic.i_setz. row_sim. }
srow_. { unfold Mnemonic32.i_sha1msg1, Mnemonic.i_sha1msg1. row_sim. }
srow_. { unfold Mnemonic32.i_sha1msg2, Mnemonic.i_sha1msg2. row_sim. }
srow_. { unfold Mnemonic32.i_sha1nexte, Mnemonic.i_sha1nexte. row_sim. }
srow_. { unfold Mnemonic32.i_sha1rnds4, Mnemonic.i_sha1rnds4. row_sim. }
srow_. { unfold Mnemonic32.i_sha256msg1, Mnemonic.i_sha256msg1. row_sim. }
srow_. { unfold Mnemonic32.i_sha256msg2, Mnemonic.i_sha256msg2. row_sim. }
srow_. { unfold Mnemonic32.i_sha256rnds2, Mnemonic.i_sha256rnds2. row_sim. }
row. { unfold Mnemonic32.i_shl_ob, Mnemonic.i_shl_ob. row_sim. }
row. { unfold Mnemonic32.i_shl_oi, Mnemonic.i_shl_oi. row_sim. }
row. { unfold Mnemonic32.i_shl_rob, Mnemonic.i_shl_rob. row_sim. }
row. { unfold Mnemonic32.i_shl_roi, Mnemonic.i_shl_roi. row_sim. }
srow_. { unfold Mnemonic32.i_shld_orb, Mnemonic.i_shld_orb. row_sim. }
srow_. { unfold Mnemonic32.i_shld_ori, Mnemonic.i_shld_ori. row_sim. }
srow_. { unfold Mnemonic32.i_shld_rorb, Mnemonic.i_shld_rorb. row_sim. }
srow_. { unfold Mnemonic32.i_shld_rori, Mnemonic.i_shld_rori. row_sim. }
row. { unfold Mnemonic32.i_shlx, Mnemonic.i_shlx. row_sim. }
row. { unfold Mnemonic32.i_shr_ob, Mnemonic.i_shr_ob. row_sim. }
apply Forall_nil. Qed.
Definition sims28 : list b_entry :=
  [mkB "shr_oi" (fun v => let (o, a, r, n, e, s) := v in Mnemonic32.i_shr_oi (o 0) (n 1))
     (fun v => let (o, a, r, n, e, s) := v in Mnemonic.i_shr_oi (widen_op (o 0)) (n 1));
   mkB "shr_rob" (fun v => let (o, a, r, n, e, s) := v in Mnemonic32.i_shr_rob (r 0) (o 1) (r 2))
     (fun v => let (o, a, r, n, e, s) := v in Mnemonic.i_shr_rob (r 0) (widen_op (o 1)) (r 2));
   mkB "shr_roi" (fun v => let (o, a, r, n, e, s) := v in Mnemonic32.i_shr_roi (r 0) (o 1) (n 2))
     (fun v => let (o, a, r, n, e, s) := v in Mnemonic.i_shr_roi (r 0) (widen_op (o 1)) (n 2));
   mkB "shrd_orb" (fun v => let (o, a, r, n, e, s) := v in Mnemonic32.i_shrd_orb (o 0) (r 1) (r 2))
     (fun v => let (o, a, r, n, e, s) := v in Mnemonic.i_shrd_orb (widen_op (o 0)) (r 1) (r 2));
   mkB "shrd_ori" (fun v => let (o, a, r, n, e, s) := v in Mnemonic32.i_shrd_ori (o 0) (r 1) (n 2))
     (fun v => let (o, a, r, n, e, s) := v in Mnemonic.i_shrd_ori (widen_op (o 0)) (r 1) (n 2));
   mkB "shrd_rorb" (fun v => let (o, a, r, n, e, s) := v in Mnemonic32.i_shrd_rorb (r 0) (o 1) (r 2) (r 3))
     (fun v => let (o, a, r, n, e, s) := v in Mnemonic.i_shrd_rorb (r 0) (widen_op (o 1)) (r 2) (r 3));
   mkB "shrd_rori" (fun v => let (o, a, r, n, e, s) := v in Mnemonic32.i_shrd_rori (r 0) (o 1) (r 2) (n 3))
     (fun v => let (o, a, r, n, e, s) := v in Mnemonic.i_shrd_rori (r 0) (widen_op (o 1)) (r 2) (n 3));
   mkB "shrx" (fun v => let (o, a, r, n, e, s) := v in Mnemonic32.i_shrx (r 0) (o 1) (r 2))
     (fun v => let (o, a, r, n, e, s) := v in Mnemonic.i_shrx (r 0) (widen_op (o 1)) (r 2));
   mkB "shufpd" (fun v => let (o, a, r, n, e, s) := v in Mnemonic32.i_shufpd (r 0) (o 1) (n 2))
     (fun v => let (o, a, r, n, e, s) := v in Mnemonic.i_shufpd (r 0) (widen_op (o 1)) (n 2));
   mkB "shufps" (fun v => let (o, a, r, n, e, s) := v in Mnemonic32.i_shufps (r 0) (o 1) (n 2))
     (fun v => let (o, a, r, n, e, s) := v in Mnemonic.i_shufps (r 0) (widen_op (o 1)) (n 2));
   mkB "sqrtpd" (fun v => let (o, a, r, n, e, s) := v in Mnemonic32.i_sqrtpd (r 0) (o 1))
     (fun v => let (o, a, r, n, e, s) := v in Mnemonic.i_sqrtpd (r 0) (widen_op (o 1)));
   mkB "sqrtps" (fun v => let (o, a, r, n, e, s) := v in Mnemonic32.i_sqrtps (r 0) (o 1))
     (fun v => let (o, a, r, n, e, s) := v in Mnemonic.i_sqrtps (r 0) (widen_op (o 1)));
   mkB "sqrtsd" (fun v => let (o, a, r, n, e, s) := v in Mnemonic32.i_sqrtsd (r 0) (o 1))
     (fun v => let (o, a, r, n, e, s) := v in Mnemonic.i_sqrtsd (r 0) (widen_op (o 1)));
   mkB "sqrtss" (fun v => let (o, a, r, n, e, s) := v in Mnemonic32.i_sqrtss (r 0) (o 1))
     (fun v => let (o, a, r, n, e, s) := v in Mnemonic.i_sqrtss (r 0) (widen_op (o 1)));
   mkB "stmxcsr" (fun v => let (o, a, r, n, e, s) := v in Mnemonic32.i_stmxcsr (a 0))
     (fun v => let (o, a, r, n, e, s) := v in Mnemonic.i_stmxcsr (widen_addr (a 0)));
   mkB "sub_oi" (fun v => let (o, a, r, n, e, s) := v in Mnemonic32.i_sub_oi (o 0) (n 1))
     (fun v => let (o, a, r, n, e, s) := v in Mnemonic.i_sub_oi (widen_op (o 0)) (n 1));
   mkB "sub_oo" (fun v => let (o, a, r, n, e, s) := v in Mnemonic32.i_sub_oo (o 0) (o 1))
     (fun v => let (o, a, r, n, e, s) := v in Mnemonic.i_sub_oo (widen_op (o 0)) (widen_op (o 1)));
   mkB "sub_roi" (fun v => let (o, a, r, n, e, s) := v in Mnemonic32.i_sub_roi (r 0) (o 1) (n 2))
     (fun v => let (o, a, r, n, e, s) := v in Mnemonic.i_sub_roi (r 0) (widen_op (o 1)) (n 2));
   mkB "sub_roo" (fun v => let (o, a, r, n, e, s) := v in Mnemonic32.i_sub_roo (r 0) (o 1) (o 2))
     (fun v => let (o, a, r, n, e, s) := v in Mnemonic.i_sub_roo (r 0) (widen_op (o 1)) (widen_op (o 2)));
   mkB "subpd" (fun v => let (o, a, r, n, e, s) := v in Mnemonic32.i_subpd (r 0) (o 1))
     (fun v => let (o, a, r, n, e, s) := v in Mnemonic.i_subpd (r 0) (widen_op (o 1)));
   mkB "subps" (fun v => let (o, a, r, n, e, s) := v in Mnemonic32.i_subps (r 0) (o 1))
     (fun v => let (o, a, r, n, e, s) := v in Mnemonic.i_subps (r 0) (widen_op (o 1)));
   mkB "subsd" (fun v => let (o, a, r, n, e, s) := v in Mnemonic32.i_subsd (r 0) (o 1))
     (fun v => let (o, a, r, n, e, s) := v in Mnemonic.i_subsd (r 0) (widen_op (o 1)));
   mkB "subss" (fun v => let (o, a, r, n, e, s) := v in Mnemonic32.i_subss (r 0) (o 1))
     (fun v => let (o, a, r, n, e, s) := v in Mnemonic.i_subss (r 0) (widen_op (o 1)));
   mkB "tzcnt" (fun v => let (o, a, r, n, e, s) := v in Mnemonic32.i_tzcnt (r 0) (o 1))
     (fun v => let (o, a, r, n, e, s) := v in Mnemonic.i_tzcnt (r 0) (widen_op (o 1)));
   mkB "ucomisd" (fun v => let (o, a, r, n, e, s) := v in Mnemonic32.i_ucomisd (r 0) (o 1))
     (fun v => let (o, a, r, n, e, s) := v in Mnemonic.i_ucomisd (r 0) (widen_op (o 1)))].
Lemma sims28_ok : Forall same sims28.
Proof. unfold sims28.
row. { unfold Mnemonic32.i_shr_oi, Mnemonic.i_shr_oi. row_sim. }
row. { unfold Mnemonic32.i_shr_rob, Mnemonic.i_shr_rob. row_sim. }
row. { unfold Mnemonic32.i_shr_roi, Mnemonic.i_shr_roi. row_sim. }
srow_. { unfold Mnemonic32.i_shrd_orb, Mnemonic.i_shrd_orb. row_sim. }
srow_. { unfold Mnemonic32.i_shrd_ori, Mnemonic.i_shrd_ori. row_sim. }
srow_. { unfold Mnemonic32.i_shrd_rorb, Mnemonic.i_shrd_rorb. row_sim. }
srow_. { unfold Mnemonic32.i_shrd_rori, Mnemonic.i_shrd_rori. row_sim. }
row. { unfold Mnemonic32.i_shrx, Mnemonic.i_shrx. row_sim. }
srow_. { unfold Mnemonic32.i_shufpd, Mnemonic.i_shufpd. row_sim. }
srow_. { unfold Mnemonic32.i_shufps, Mnemonic.i_shufps. row_sim. }
srow_. { unfold Mnemonic32.i_sqrtpd, Mnemonic.i_sqrtpd. row_sim. }
srow_. { unfold Mnemonic32.i_sqrtps, Mnemonic.i_sqrtps. row_sim. }
srow_. { unfold Mnemonic32.i_sqrtsd, Mnemonic.i_sqrtsd. row_sim. }
srow_. { unfold Mnemonic32.i_sqrtss, Mnemonic.i_sqrtss. row_sim. }
row. { unfold Mnemonic32.i_stmxcsr, Mnemonic.i_stmxcsr. row_sim. }
row. { unfold Mnemonic32.i_sub_oi, Mnemonic.i_sub_oi. row_sim. }
srow_. { unfold Mnemonic32.i_sub_oo, Mnemonic.i_sub_oo. row_sim. }
row. { unfold Mnemonic32.i_sub_roi, Mnemonic.i_sub_roi. row_sim. }
row. { unfold Mnemonic32.i_sub_roo, Mnemonic.i_sub_roo. row_sim. }
srow_. { unfold Mnemonic32.i_subpd, Mnemonic.i_subpd. row_sim. }
srow_. { unfold Mnemonic32.i_subps, Mnemonic.i_subps. row_sim. }
srow_. { unfold Mnemonic32.i_subsd, Mnemonic.i_subsd. row_sim. }
srow_. { unfold Mnemonic32.i_subss, Mnemonic.i_subss. row_sim. }
srow_. { unfold Mnemonic32.i_tzcnt, Mnemonic.i_tzcnt. row_sim. }
srow_. { unfold Mnemonic32.i_ucomisd, Mnemonic.i_ucomisd. row_sim. }
apply Forall_nil. Qed.
Definition sims29 : list b_entry :=
  [mkB "ucomiss" (fun v => let (o, a, r, n, e, s) := v in Mnemonic32.i_ucomiss (r 0) (o 1))
     (fun v => let (o, a, r, n, e, s) := v in Mnemonic.i_ucomiss (r 0) (widen_op (o 1)));
   mkB "unpckhpd" (fun v => let (o, a, r, n, e, s) := v in Mnemonic32.i_unpckhpd (r 0) (o 1))
     (fun v => let (o, a, r, n, e, s) := v in Mnemonic.i_unpckhpd (r 0) (widen_op (o 1)));
   mkB "unpckhps" (fun v => let (o, a, r, n, e, s) := v in Mnemonic32.i_unpckhps (r 0) (o 1))
     (fun v => let (o, a, r, n, e, s) := v in Mnemonic.i_unpckhps (r 0) (widen_op (o 1)));
   mkB "unpcklpd" (fun v => let (o, a, r, n, e, s) := v in Mnemonic32.i_unpcklpd (r 0) (o 1))
     (fun v => let (o, a, r, n, e, s) := v in Mnemonic.i_unpcklpd (r 0) (widen_op (o 1)));
   mkB "unpcklps" (fun v => let (o, a, r, n, e, s) := v in Mnemonic32.i_unpcklps (r 0) (o 1))
     (fun v => let (o, a, r, n, e, s) := v in Mnemonic.i_unpcklps (r 0) (widen_op (o 1)));
   mkB "vaddpd" (fun v => let (o, a, r, n, e, s) := v in Mnemonic32.i_vaddpd (r 0) (o 1) (o 2))
     (fun v => let (o, a, r, n, e, s) := v in Mnemonic.i_vaddpd (r 0) (widen_op (o 1)) (widen_op (o 2)));
   mkB "vaddps" (fun v => let (o, a, r, n, e, s) := v in Mnemonic32.i_vaddps (r 0) (o 1) (o 2))
     (fun v => let (o, a, r, n, e, s) := v in Mnemonic.i_vaddps (r 0) (widen_op (o 1)) (widen_op (o 2)));
   mkB "vaddsd" (fun v => let (o, a, r, n, e, s) := v in Mnemonic32.i_vaddsd (r 0) (o 1) (o 2))
     (fun v => let (o, a, r, n, e, s) := v in Mnemonic.i_vaddsd (r 0) (widen_op (o 1)) (widen_op (o 2)));
   mkB "vaddss" (fun v => let (o, a, r, n, e, s) := v in Mnemonic32.i_vaddss (r 0) (o 1) (o 2))
     (fun v => let (o, a, r, n, e, s) := v in Mnemonic.i_vaddss (r 0) (widen_op (o 1)) (widen_op (o 2)));
   mkB "vaddsubpd" (fun v => let (o, a, r, n, e, s) := v in Mnemonic32.i_vaddsubpd (r 0) (o 1) (o 2))
     (fun v => let (o, a, r, n, e, s) := v in Mnemonic.i_vaddsubpd (r 0) (widen_op (o 1)) (widen_op (o 2)));
   mkB "vaddsubps" (fun v => let (o, a, r, n, e, s) := v in Mnemonic32.i_vaddsubps (r 0) (o 1) (o 2))
     (fun v => let (o, a, r, n, e, s) := v in Mnemonic.i_vaddsubps (r 0) (widen_op (o 1)) (widen_op (o 2)));
   mkB "vaesdec" (fun v => let (o, a, r, n, e, s) := v in Mnemonic32.i_vaesdec (r 0) (o 1) (o 2))
     (fun v => let (o, a, r, n, e, s) := v in Mnemonic.i_vaesdec (r 0) (widen_op (o 1)) (widen_op (o 2)));
   mkB "vaesdeclast" (fun v => let (o, a, r, n, e, s) := v in Mnemonic32.i_vaesdeclast (r 0) (o 1) (o 2))
     (fun v => let (o, a, r, n, e, s) := v in Mnemonic.i_vaesdeclast (r 0) (widen_op (o 1)) (widen_op (o 2)));
   mkB "vaesenc" (fun v => let (o, a, r, n, e, s) := v in Mnemonic32.i_vaesenc (r 0) (o 1) (o 2))
     (fun v => let (o, a, r, n, e, s) := v in Mnemonic.i_vaesenc (r 0) (widen_op (o 1)) (widen_op (o 2)));
   mkB "vaesenclast" (fun v => let (o, a, r, n, e, s) := v in Mnemonic32.i_vaesenclast (r 0) (o 1) (o 2))
     (fun v => let (o, a, r, n, e, s) := v in Mnemonic.i_vaesenclast (r 0) (widen_op (o 1)) (widen_op (o 2)));
   mkB "vaesimc" (fun v => let (o, a, r, n, e, s) := v in Mnemonic32.i_vaesimc (r 0) (o 1))
     (fun v => let (o, a, r, n, e, s) := v in Mnemonic.i_vaesimc (r 0) (widen_op (o 1)));
   mkB "vaeskeygenassist" (fun v => let (o, a, r, n, e, s) := v in Mnemonic32.i_vaeskeygenassist (r 0) (o 1) (n 2))
     (fun v => let (o, a, r, n, e, s) := v in Mnemonic.i_vaeskeygenassist (r 0) (widen_op (o 1)) (n 2));
   mkB "vandnpd" (fun v => let (o, a, r, n, e, s) := v in Mnemonic32.i_vandnpd (r 0) (o 1) (o 2))
     (fun v => let (o, a, r, n, e, s) := v in Mnemonic.i_vandnpd (r 0) (widen_op (o 1)) (widen_op (o 2)));
   mkB "vandnps" (fun v => let (o, a, r, n, e, s) := v in Mnemonic32.i_vandnps (r 0) (o 1) (o 2))
     (fun v => let (o, a, r, n, e, s) := v in Mnemonic.i_vandnps (r 0) (widen_op (o 1)) (widen_op (o 2)));
   mkB "vandpd" (fun v => let (o, a, r, n, e, s) := v in Mnemonic32.i_vandpd (r 0) (o 1) (o 2))
     (fun v => let (o, a, r, n, e, s) := v in Mnemonic.i_vandpd (r 0) (widen_op (o 1)) (widen_op (o 2)));
   mkB "vandps" (fun v => let (o, a, r, n, e, s) := v in Mnemonic32.i_vandps (r 0) (o 1) (o 2))
     (fun v => let (o, a, r, n, e, s) := v in Mnemonic.i_vandps (r 0) (widen_op (o 1)) (widen_op (o 2)));
   mkB "vbcstnebf162ps" (fun v => let (o, a, r, n, e, s) := v in Mnemonic32.i_vbcstnebf162ps (r 0) (a 1))
     (fun v => let (o, a, r, n, e, s) := v in Mnemonic.i_vbcstnebf162ps (r 0) (widen_addr (a 1)));
   mkB "vbcstnesh2ps" (fun v => let (o, a, r, n, e, s) := v in Mnemonic32.i_vbcstnesh2ps (r 0) (a 1))
     (fun v => let (o, a, r, n, e, s) := v in Mnemonic.i_vbcstnesh2ps (r 0) (widen_addr (a 1)));
   mkB "vblendpd_xxoi" (fun v => let (o, a, r, n, e, s) := v in Mnemonic32.i_vblendpd_xxoi (r 0) (r 1) (o 2) (n 3))
     (fun v => let (o, a, r, n, e, s) := v in Mnemonic.i_vblendpd_xxoi (r 0) (r 1) (widen_op (o 2)) (n 3));
   mkB "vblendps_xxoi" (fun v => let (o, a, r, n, e, s) := v in Mnemonic32.i_vblendps_xxoi (r 0) (r 1) (o 2) (n 3))
     (fun v => let (o, a, r, n, e, s) := v in Mnemonic.i_vblendps_xxoi (r 0) (r 1) (widen_op (o 2)) (n 3))].
Lemma sims29_ok : Forall same sims29.
Proof. unfold sims29.
srow_. { unfold Mnemonic32.i_ucomiss, Mnemonic.i_ucomiss. row_sim. }
srow_. { unfold Mnemonic32.i_unpckhpd, Mnemonic.i_unpckhpd. row_sim. }
srow_. { unfold Mnemonic32.i_unpckhps, Mnemonic.i_unpckhps. row_sim. }
srow_. { unfold Mnemonic32.i_unpcklpd, Mnemonic.i_unpcklpd. row_sim. }
srow_. { unfold Mnemonic32.i_unpcklps, Mnemonic.i_unpcklps. row_sim. }
row. { unfold Mnemonic32.i_vaddpd, Mnemonic.i_vaddpd. row_sim. }
row. { unfold Mnemonic32.i_vaddps, Mnemonic.i_vaddps. row_sim. }
row. { unfold Mnemonic32.i_vaddsd, Mnemonic.i_vaddsd. row_sim. }
row. { unfold Mnemonic32.i_vaddss, Mnemonic.i_vaddss. row_sim. }
row. { unfold Mnemonic32.i_vaddsubpd, Mnemonic.i_vaddsubpd. row_sim. }
row. { unfold Mnemonic32.i_vaddsubps, Mnemonic.i_vaddsubps. row_sim. }
row. { unfold Mnemonic32.i_vaesdec, Mnemonic.i_vaesdec. row_sim. }
row. { unfold Mnemonic32.i_vaesdeclast, Mnemonic.i_vaesdeclast. row_sim. }
row. { unfold Mnemonic32.i_vaesenc, Mnemonic.i_vaesenc. row_sim. }
row. { unfold Mnemonic32.i_vaesenclast, Mnemonic.i_vaesenclast. row_sim. }
row. { unfold Mnemonic32.i_vaesimc, Mnemonic.i_vaesimc. row_sim. }
row. { unfold Mnemonic32.i_vaeskeygenassist, Mnemonic.i_vaeskeygenassist. row_sim. }
row. { unfold Mnemonic32.i_vandnpd, Mnemonic.i_vandnpd. row_sim. }
row. { unfold Mnemonic32.i_vandnps, Mnemonic.i_vandnps. row_sim. }
row. { unfold Mnemonic32.i_vandpd, Mnemonic.i_vandpd. row_sim. }
row. { unfold Mnemonic32.i_vandps, Mnemonic.i_vandps. row_sim. }
row. { unfold Mnemonic32.i_vbcstnebf162ps, Mnemonic.i_vbcstnebf162ps. row_sim. }
row. { unfold Mnemonic32.i_vbcstnesh2ps, Mnemonic.i_vbcstnesh2ps. row_sim. }
row. { unfold Mnemonic32.i_vblendpd_xxoi, Mnemonic.i_vblendpd_xxoi. row_sim. }
row. { unfold Mnemonic32.i_vblendps_xxoi, Mnemonic.i_vblendps_xxoi. row_sim. }
apply Forall_nil. Qed.
Definition sims30 : list b_entry :=
  [mkB "vblendvpd_xxox" (fun v => let (o, a, r, n, e, s) := v in Mnemonic32.i_vblendvpd_xxox (r 0) (r 1) (o 2) (r 3))
     (fun v => let (o, a, r, n, e, s) := v in Mnemonic.i_vblendvpd_xxox (r 0) (r 1) (widen_op (o 2)) (r 3));
   mkB "vblendvps_xxox" (fun v => let (o, a, r, n, e, s) := v in Mnemonic32.i_vblendvps_xxox (r 0) (r 1) (o 2) (r 3))
     (fun v => let (o, a, r, n, e, s) := v in Mnemonic.i_vblendvps_xxox (r 0) (r 1) (widen_op (o 2)) (r 3));
   mkB "vbroadcastf128" (fun v => let (o, a, r, n, e, s) := v in Mnemonic32.i_vbroadcastf128 (r 0) (a 1))
     (fun v => let (o, a, r, n, e, s) := v in Mnemonic.i_vbroadcastf128 (r 0) (widen_addr (a 1)));
   mkB "vbroadcasti128" (fun v => let (o, a, r, n, e, s) := v in Mnemonic32.i_vbroadcasti128 (r 0) (a 1))
     (fun v => let (o, a, r, n, e, s) := v in Mnemonic.i_vbroadcasti128 (r 0) (widen_addr (a 1)));
   mkB "vbroadcastsd" (fun v => let (o, a, r, n, e, s) := v in Mnemonic32.i_vbroadcastsd (r 0) (o 1))
     (fun v => let (o, a, r, n, e, s) := v in Mnemonic.i_vbroadcastsd (r 0) (widen_op (o 1)));
   mkB "vbroadcastss" (fun v => let (o, a, r, n, e, s) := v in Mnemonic32.i_vbroadcastss (r 0) (o 1))
     (fun v => let (o, a, r, n, e, s) := v in Mnemonic.i_vbroadcastss (r 0) (widen_op (o 1)));
   mkB "vcmppd_xxoi" (fun v => let (o, a, r, n, e, s) := v in Mnemonic32.i_vcmppd_xxoi (r 0) (r 1) (o 2) (n 3))
     (fun v => let (o, a, r, n, e, s) := v in Mnemonic.i_vcmppd_xxoi (r 0) (r 1) (widen_op (o 2)) (n 3));
   mkB "vcmpeq_ospd_xxo" (fun v => let (o, a, r, n, e, s) := v in Mnemonic32.i_vcmpeq_ospd_xxo (r 0) (r 1) (o 2))
     (fun v => let (o, a, r, n, e, s) := v in Mnemonic.i_vcmpeq_ospd_xxo (r 0) (r 1) (widen_op (o 2)));
   mkB "vcmpps_xxoi" (fun v => let (o, a, r, n, e, s) := v in Mnemonic32.i_vcmpps_xxoi (r 0) (r 1) (o 2) (n 3))
     (fun v => let (o, a, r, n, e, s) := v in Mnemonic.i_vcmpps_xxoi (r 0) (r 1) (widen_op (o 2)) (n 3));
   mkB "vcmpeq_osps_xxo" (fun v => let (o, a, r, n, e, s) := v in Mnemonic32.i_vcmpeq_osps_xxo (r 0) (r 1) (o 2))
     (fun v => let (o, a, r, n, e, s) := v in Mnemonic.i_vcmpeq_osps_xxo (r 0) (r 1) (widen_op (o 2)));
   mkB "vcmpsd_xxoi" (fun v => let (o, a, r, n, e, s) := v in Mnemonic32.i_vcmpsd_xxoi (r 0) (r 1) (o 2) (n 3))
     (fun v => let (o, a, r, n, e, s) := v in Mnemonic.i_vcmpsd_xxoi (r 0) (r 1) (widen_op (o 2)) (n 3));
   mkB "vcmpeq_ossd_xxo" (fun v => let (o, a, r, n, e, s) := v in Mnemonic32.i_vcmpeq_ossd_xxo (r 0) (r 1) (o 2))
     (fun v => let (o, a, r, n, e, s) := v in Mnemonic.i_vcmpeq_ossd_xxo (r 0) (r 1) (widen_op (o 2)));
   mkB "vcmpss_xxoi" (fun v => let (o, a, r, n, e, s) := v in Mnemonic32.i_vcmpss_xxoi (r 0) (r 1) (o 2) (n 3))
     (fun v => let (o, a, r, n, e, s) := v in Mnemonic.i_vcmpss_xxoi (r 0) (r 1) (widen_op (o 2)) (n 3));
   mkB "vcmpeq_osss_xxo" (fun v => let (o, a, r, n, e, s) := v in Mnemonic32.i_vcmpeq_osss_xxo (r 0) (r 1) (o 2))
     (fun v => let (o, a, r, n, e, s) := v in Mnemonic.i_vcmpeq_osss_xxo (r 0) (r 1) (widen_op (o 2)));
   mkB "vcmpeq_uqpd_xxo" (fun v => let (o, a, r, n, e, s) := v in Mnemonic32.i_vcmpeq_uqpd_xxo (r 0) (r 1) (o 2))
     (fun v => let (o, a, r, n, e, s) := v in Mnemonic.i_vcmpeq_uqpd_xxo (r 0) (r 1) (widen_op (o 2)));
   mkB "vcmpeq_uqps_xxo" (fun v => let (o, a, r, n, e, s) := v in Mnemonic32.i_vcmpeq_uqps_xxo (r 0) (r 1) (o 2))
     (fun v => let (o, a, r, n, e, s) := v in Mnemonic.i_vcmpeq_uqps_xxo (r 0) (r 1) (widen_op (o 2)));
   mkB "vcmpeq_uqsd_xxo" (fun v => let (o, a, r, n, e, s) := v in Mnemonic32.i_vcmpeq_uqsd_xxo (r 0) (r 1) (o 2))
     (fun v => let (o, a, r, n, e, s) := v in Mnemonic.i_vcmpeq_uqsd_xxo (r 0) (r 1) (widen_op (o 2)));
   mkB "vcmpeq_uqss_xxo" (fun v => let (o, a, r, n, e, s) := v in Mnemonic32.i_vcmpeq_uqss_xxo (r 0) (r 1) (o 2))
     (fun v => let (o, a, r, n, e, s) := v in Mnemonic.i_vcmpeq_uqss_xxo (r 0) (r 1) (widen_op (o 2)));
   mkB "vcmpeq_uspd_xxo" (fun v => let (o, a, r, n, e, s) := v in Mnemonic32.i_vcmpeq_uspd_xxo (r 0) (r 1) (o 2))
     (fun v => let (o, a, r, n, e, s) := v in Mnemonic.i_vcmpeq_uspd_xxo (r 0) (r 1) (widen_op (o 2)));
   mkB "vcmpeq_usps_xxo" (fun v => let (o, a, r, n, e, s) := v in Mnemonic32.i_vcmpeq_usps_xxo (r 0) (r 1) (o 2))
     (fun v => let (o, a, r, n, e, s) := v in Mnemonic.i_vcmpeq_usps_xxo (r 0) (r 1) (widen_op (o 2)));
   mkB "vcmpeq_ussd_xxo" (fun v => let (o, a, r, n, e, s) := v in Mnemonic32.i_vcmpeq_ussd_xxo (r 0) (r 1) (o 2))
     (fun v => let (o, a, r, n, e, s) := v in Mnemonic.i_vcmpeq_ussd_xxo (r 0) (r 1) (widen_op (o 2)));
   mkB "vcmpeq_usss_xxo" (fun v => let (o, a, r, n, e, s) := v in Mnemonic32.i_vcmpeq_usss_xxo (r 0) (r 1) (o 2))
     (fun v => let (o, a, r, n, e, s) := v in Mnemonic.i_vcmpeq_usss_xxo (r 0) (r 1) (widen_op (o 2)));
   mkB "vcmpeqpd_xxo" (fun v => let (o, a, r, n, e, s) := v in Mnemonic32.i_vcmpeqpd_xxo (r 0) (r 1) (o 2))
     (fun v => let (o, a, r, n, e, s) := v in Mnemonic.i_vcmpeqpd_xxo (r 0) (r 1) (widen_op (o 2)));
   mkB "vcmpeqps_xxo" (fun v => let (o, a, r, n, e, s) := v in Mnemonic32.i_vcmpeqps_xxo (r 0) (r 1) (o 2))
     (fun v => let (o, a, r, n, e, s) := v in Mnemonic.i_vcmpeqps_xxo (r 0) (r 1) (widen_op (o 2)));
   mkB "vcmpeqsd_xxo" (fun v => let (o, a, r, n, e, s) := v in Mnemonic32.i_vcmpeqsd_xxo (r 0) (r 1) (o 2))
     (fun v => let (o, a, r, n, e, s) := v in Mnemonic.i_vcmpeqsd_xxo (r 0) (r 1) (widen_op (o 2)))].
Lemma sims30_ok : Forall same sims30.
Proof. unfold sims30.
row. { unfold Mnemonic32.i_vblendvpd_xxox, Mnemonic.i_vblendvpd_xxox. row_sim. }
row. { unfold Mnemonic32.i_vblendvps_xxox, Mnemonic.i_vblendvps_xxox. row_sim. }
row. { unfold Mnemonic32.i_vbroadcastf128, Mnemonic.i_vbroadcastf128. row_sim. }
row. { unfold Mnemonic32.i_vbroadcasti128, Mnemonic.i_vbroadcasti128. row_sim. }
row. { unfold Mnemonic32.i_vbroadcastsd, Mnemonic.i_vbroadcastsd. row_sim. }
row. { unfold Mnemonic32.i_vbroadcastss, Mnemonic.i_vbroadcastss. row_sim. }
row. { unfold Mnemonic32.i_vcmppd_xxoi, Mnemonic.i_vcmppd_xxoi. row_sim. }
row. { unfold Mnemonic32.i_vcmpeq_ospd_xxo, Mnemonic32.i_vcmppd_xxoi, Mnemonic.i_vcmpeq_ospd_xxo, Mnemonic.i_vcmppd_xxoi. row_sim. }
row. { unfold Mnemonic32.i_vcmpps_xxoi, Mnemonic.i_vcmpps_xxoi. row_sim. }
row. { unfold Mnemonic32.i_vcmpeq_osps_xxo, Mnemonic32.i_vcmpps_xxoi, Mnemonic.i_vcmpeq_osps_xxo, Mnemonic.i_vcmpps_xxoi. row_sim. }
row. { unfold Mnemonic32.i_vcmpsd_xxoi, Mnemonic.i_vcmpsd_xxoi. row_sim. }
row. { unfold Mnemonic32.i_vcmpeq_ossd_xxo, Mnemonic32.i_vcmpsd_xxoi, Mnemonic.i_vcmpeq_ossd_xxo, Mnemonic.i_vcmpsd_xxoi. row_sim. }
row. { unfold Mnemonic32.i_vcmpss_xxoi, Mnemonic.i_vcmpss_xxoi. row_sim. }
row. { unfold Mnemonic32.i_vcmpeq_osss_xxo, Mnemonic32.i_vcmpss_xxoi, Mnemonic.i_vcmpeq_osss_xxo, Mnemonic.i_vcmpss_xxoi. row_sim. }
row. { unfold Mnemonic32.i_vcmpeq_uqpd_xxo, Mnemonic32.i_vcmppd_xxoi, Mnemonic.i_vcmpeq_uqpd_xxo, Mnemonic.i_vcmppd_xxoi. row_sim. }
row. { unfold Mnemonic32.i_vcmpeq_uqps_xxo, Mnemonic32.i_vcmpps_xxoi, Mnemonic.i_vcmpeq_uqps_xxo, Mnemonic.i_vcmpps_xxoi. row_sim. }
row. { unfold Mnemonic32.i_vcmpeq_uqsd_xxo, Mnemonic32.i_vcmpsd_xxoi, Mnemonic.i_vcmpeq_uqsd_xxo, Mnemonic.i_vcmpsd_xxoi. row_sim. }
row. { unfold Mnemonic32.i_vcmpeq_uqss_xxo, Mnemonic32.i_vcmpss_xxoi, Mnemonic.i_vcmpeq_uqss_xxo, Mnemonic.i_vcmpss_xxoi. row_sim. }
row. { unfold Mnemonic32.i_vcmpeq_uspd_xxo, Mnemonic32.i_vcmppd_xxoi, Mnemonic.i_vcmpeq_uspd_xxo, Mnemonic.i_vcmppd_xxoi. row_sim. }
row. { unfold Mnemonic32.i_vcmpeq_usps_xxo, Mnemonic32.i_vcmpps_xxoi, Mnemonic.i_vcmpeq_usps_xxo, Mnemonic.i_vcmpps_xxoi. row_sim. }
row. { unfold Mnemonic32.i_vcmpeq_ussd_xxo, Mnemonic32.i_vcmpsd_xxoi, Mnemonic.i_vcmpeq_ussd_xxo, Mnemonic.i_vcmpsd_xxoi. row_sim. }
row. { unfold Mnemonic32.i_vcmpeq_usss_xxo, Mnemonic32.i_vcmpss_xxoi, Mnemonic.i_vcmpeq_usss_xxo, Mnemonic.i_vcmpss_xxoi. row_sim. }
row. { unfold Mnemonic32.i_vcmpeqpd_xxo, Mnemonic32.i_vcmppd_xxoi, Mnemonic.i_vcmpeqpd_xxo, Mnemonic.i_vcmppd_xxoi. row_sim. }
row. { unfold Mnemonic32.i_vcmpeqps_xxo, Mnemonic32.i_vcmpps_xxoi, Mnemonic.i_vcmpeqps_xxo, Mnemonic.i_vcmpps_xxoi. row_sim. }
row. { unfold Mnemonic32.i_vcmpeqsd_xxo, Mnemonic32.i_vcmpsd_xxoi, Mnemonic.i_vcmpeqsd_xxo, Mnemonic.i_vcmpsd_xxoi. row_sim. }
apply Forall_nil. Qed.
Definition sims31 : list b_entry :=
  [mkB "vcmpeqss_xxo" (fun v => let (o, a, r, n, e, s) := v in Mnemonic32.i_vcmpeqss_xxo (r 0) (r 1) (o 2))
     (fun v => let (o, a, r, n, e, s) := v in Mnemonic.i_vcmpeqss_xxo (r 0) (r 1) (widen_op (o 2)));
   mkB "vcmpfalse_ospd_xxo" (fun v => let (o, a, r, n, e, s) := v in Mnemonic32.i_vcmpfalse_ospd_xxo (r 0) (r 1) (o 2))
     (fun v => let (o, a, r, n, e, s) := v in Mnemonic.i_vcmpfalse_ospd_xxo (r 0) (r 1) (widen_op (o 2)));
   mkB "vcmpfalse_osps_xxo" (fun v => let (o, a, r, n, e, s) := v in Mnemonic32.i_vcmpfalse_osps_xxo (r 0) (r 1) (o 2))
     (fun v => let (o, a, r, n, e, s) := v in Mnemonic.i_vcmpfalse_osps_xxo (r 0) (r 1) (widen_op (o 2)));
   mkB "vcmpfalse_ossd_xxo" (fun v => let (o, a, r, n, e, s) := v in Mnemonic32.i_vcmpfalse_ossd_xxo (r 0) (r 1) (o 2))
     (fun v => let (o, a, r, n, e, s) := v in Mnemonic.i_vcmpfalse_ossd_xxo (r 0) (r 1) (widen_op (o 2)));
   mkB "vcmpfalse_osss_xxo" (fun v => let (o, a, r, n, e, s) := v in Mnemonic32.i_vcmpfalse_osss_xxo (r 0) (r 1) (o 2))
     (fun v => let (o, a, r, n, e, s) := v in Mnemonic.i_vcmpfalse_osss_xxo (r 0) (r 1) (widen_op (o 2)));
   mkB "vcmpfalsepd_xxo" (fun v => let (o, a, r, n, e, s) := v in Mnemonic32.i_vcmpfalsepd_xxo (r 0) (r 1) (o 2))
     (fun v => let (o, a, r, n, e, s) := v in Mnemonic.i_vcmpfalsepd_xxo (r 0) (r 1) (widen_op (o 2)));
   mkB "vcmpfalseps_xxo" (fun v => let (o, a, r, n, e, s) := v in Mnemonic32.i_vcmpfalseps_xxo (r 0) (r 1) (o 2))
     (fun v => let (o, a, r, n, e, s) := v in Mnemonic.i_vcmpfalseps_xxo (r 0) (r 1) (widen_op (o 2)));
   mkB "vcmpfalsesd_xxo" (fun v => let (o, a, r, n, e, s) := v in Mnemonic32.i_vcmpfalsesd_xxo (r 0) (r 1) (o 2))
     (fun v => let (o, a, r, n, e, s) := v in Mnemonic.i_vcmpfalsesd_xxo (r 0) (r 1) (widen_op (o 2)));
   mkB "vcmpfalsess_xxo" (fun v => let (o, a, r, n, e, s) := v in Mnemonic32.i_vcmpfalsess_xxo (r 0) (r 1) (o 2))
     (fun v => let (o, a, r, n, e, s) := v in Mnemonic.i_vcmpfalsess_xxo (r 0) (r 1) (widen_op (o 2)));
   mkB "vcmpge_oqpd_xxo" (fun v => let (o, a, r, n, e, s) := v in Mnemonic32.i_vcmpge_oqpd_xxo (r 0) (r 1) (o 2))
     (fun v => let (o, a, r, n, e, s) := v in Mnemonic.i_vcmpge_oqpd_xxo (r 0) (r 1) (widen_op (o 2)));
   mkB "vcmpge_oqps_xxo" (fun v => let (o, a, r, n, e, s) := v in Mnemonic32.i_vcmpge_oqps_xxo (r 0) (r 1) (o 2))
     (fun v => let (o, a, r, n, e, s) := v in Mnemonic.i_vcmpge_oqps_xxo (r 0) (r 1) (widen_op (o 2)));
   mkB "vcmpge_oqsd_xxo" (fun v => let (o, a, r, n, e, s) := v in Mnemonic32.i_vcmpge_oqsd_xxo (r 0) (r 1) (o 2))
     (fun v => let (o, a, r, n, e, s) := v in Mnemonic.i_vcmpge_oqsd_xxo (r 0) (r 1) (widen_op (o 2)));
   mkB "vcmpge_oqss_xxo" (fun v => let (o, a, r, n, e, s) := v in Mnemonic32.i_vcmpge_oqss_xxo (r 0) (r 1) (o 2))
     (fun v => let (o, a, r, n, e, s) := v in Mnemonic.i_vcmpge_oqss_xxo (r 0) (r 1) (widen_op (o 2)));
   mkB "vcmpgepd_xxo" (fun v => let (o, a, r, n, e, s) := v in Mnemonic32.i_vcmpgepd_xxo (r 0) (r 1) (o 2))
     (fun v => let (o, a, r, n, e, s) := v in Mnemonic.i_vcmpgepd_xxo (r 0) (r 1) (widen_op (o 2)));
   mkB "vcmpgeps_xxo" (fun v => let (o, a, r, n, e, s) := v in Mnemonic32.i_vcmpgeps_xxo (r 0) (r 1) (o 2))
     (fun v => let (o, a, r, n, e, s) := v in Mnemonic.i_vcmpgeps_xxo (r 0) (r 1) (widen_op (o 2)));
   mkB "vcmpgesd_xxo" (fun v => let (o, a, r, n, e, s) := v in Mnemonic32.i_vcmpgesd_xxo (r 0) (r 1) (o 2))
     (fun v => let (o, a, r, n, e, s) := v in Mnemonic.i_vcmpgesd_xxo (r 0) (r 1) (widen_op (o 2)));
   mkB "vcmpgess_xxo" (fun v => let (o, a, r, n, e, s) := v in Mnemonic32.i_vcmpgess_xxo (r 0) (r 1) (o 2))
     (fun v => let (o, a, r, n, e, s) := v in Mnemonic.i_vcmpgess_xxo (r 0) (r 1) (widen_op (o 2)));
   mkB "vcmpgt_oqpd_xxo" (fun v => let (o, a, r, n, e, s) := v in Mnemonic32.i_vcmpgt_oqpd_xxo (r 0) (r 1) (o 2))
     (fun v => let (o, a, r, n, e, s) := v in Mnemonic.i_vcmpgt_oqpd_xxo (r 0) (r 1) (widen_op (o 2)));
   mkB "vcmpgt_oqps_xxo" (fun v => let (o, a, r, n, e, s) := v in Mnemonic32.i_vcmpgt_oqps_xxo (r 0) (r 1) (o 2))
     (fun v => let (o, a, r, n, e, s) := v in Mnemonic.i_vcmpgt_oqps_xxo (r 0) (r 1) (widen_op (o 2)));
   mkB "vcmpgt_oqsd_xxo" (fun v => let (o, a, r, n, e, s) := v in Mnemonic32.i_vcmpgt_oqsd_xxo (r 0) (r 1) (o 2))
     (fun v => let (o, a, r, n, e, s) := v in Mnemonic.i_vcmpgt_oqsd_xxo (r 0) (r 1) (widen_op (o 2)));
   mkB "vcmpgt_oqss_xxo" (fun v => let (o, a, r, n, e, s) := v in Mnemonic32.i_vcmpgt_oqss_xxo (r 0) (r 1) (o 2))
     (fun v => let (o, a, r, n, e, s) := v in Mnemonic.i_vcmpgt_oqss_xxo (r 0) (r 1) (widen_op (o 2)));
   mkB "vcmpgtpd_xxo" (fun v => let (o, a, r, n, e, s) := v in Mnemonic32.i_vcmpgtpd_xxo (r 0) (r 1) (o 2))
     (fun v => let (o, a, r, n, e, s) := v in Mnemonic.i_vcmpgtpd_xxo (r 0) (r 1) (widen_op (o 2)));
   mkB "vcmpgtps_xxo" (fun v => let (o, a, r, n, e, s) := v in Mnemonic32.i_vcmpgtps_xxo (r 0) (r 1) (o 2))
     (fun v => let (o, a, r, n, e, s) := v in Mnemonic.i_vcmpgtps_xxo (r 0) (r 1) (widen_op (o 2)));
   mkB "vcmpgtsd_xxo" (fun v => let (o, a, r, n, e, s) := v in Mnemonic32.i_vcmpgtsd_xxo (r 0) (r 1) (o 2))
     (fun v => let (o, a, r, n, e, s) := v in Mnemonic.i_vcmpgtsd_xxo (r 0) (r 1) (widen_op (o 2)));
   mkB "vcmpgtss_xxo" (fun v => let (o, a, r, n, e, s) := v in Mnemonic32.i_vcmpgtss_xxo (r 0) (r 1) (o 2))
     (fun v => let (o, a, r, n, e, s) := v in Mnemonic.i_vcmpgtss_xxo (r 0) (r 1) (widen_op (o 2)))].
Lemma sims31_ok : Forall same sims31.
Proof. unfold sims31.
row. { unfold Mnemonic32.i_vcmpeqss_xxo, Mnemonic32.i_vcmpss_xxoi, Mnemonic.i_vcmpeqss_xxo, Mnemonic.i_vcmpss_xxoi. row_sim. }
row. { unfold Mnemonic32.i_vcmpfalse_ospd_xxo, Mnemonic32.i_vcmppd_xxoi, Mnemonic.i_vcmpfalse_ospd_xxo, Mnemonic.i_vcmppd_xxoi. row_sim. }
row. { unfold Mnemonic32.i_vcmpfalse_osps_xxo, Mnemonic32.i_vcmpps_xxoi, Mnemonic.i_vcmpfalse_osps_xxo, Mnemonic.i_vcmpps_xxoi. row_sim. }
row. { unfold Mnemonic32.i_vcmpfalse_ossd_xxo, Mnemonic32.i_vcmpsd_xxoi, Mnemonic.i_vcmpfalse_ossd_xxo, Mnemonic.i_vcmpsd_xxoi. row_sim. }
row. { unfold Mnemonic32.i_vcmpfalse_osss_xxo, Mnemonic32.i_vcmpss_xxoi, Mnemonic.i_vcmpfalse_osss_xxo, Mnemonic.i_vcmpss_xxoi. row_sim. }
row. { unfold Mnemonic32.i_vcmpfalsepd_xxo, Mnemonic32.i_vcmppd_xxoi, Mnemonic.i_vcmpfalsepd_xxo, Mnemonic.i_vcmppd_xxoi. row_sim. }
row. { unfold Mnemonic32.i_vcmpfalseps_xxo, Mnemonic32.i_vcmpps_xxoi, Mnemonic.i_vcmpfalseps_xxo, Mnemonic.i_vcmpps_xxoi. row_sim. }
row. { unfold Mnemonic32.i_vcmpfalsesd_xxo, Mnemonic32.i_vcmpsd_xxoi, Mnemonic.i_vcmpfalsesd_xxo, Mnemonic.i_vcmpsd_xxoi. row_sim. }
row. { unfold Mnemonic32.i_vcmpfalsess_xxo, Mnemonic32.i_vcmpss_xxoi, Mnemonic.i_vcmpfalsess_xxo, Mnemonic.i_vcmpss_xxoi. row_sim. }
row. { unfold Mnemonic32.i_vcmpge_oqpd_xxo, Mnemonic32.i_vcmppd_xxoi, Mnemonic.i_vcmpge_oqpd_xxo, Mnemonic.i_vcmppd_xxoi. row_sim. }
row. { unfold Mnemonic32.i_vcmpge_oqps_xxo, Mnemonic32.i_vcmpps_xxoi, Mnemonic.i_vcmpge_oqps_xxo, Mnemonic.i_vcmpps_xxoi. row_sim. }
row. { unfold Mnemonic32.i_vcmpge_oqsd_xxo, Mnemonic32.i_vcmpsd_xxoi, Mnemonic.i_vcmpge_oqsd_xxo, Mnemonic.i_vcmpsd_xxoi. row_sim. }
row. { unfold Mnemonic32.i_vcmpge_oqss_xxo, Mnemonic32.i_vcmpss_xxoi, Mnemonic.i_vcmpge_oqss_xxo, Mnemonic.i_vcmpss_xxoi. row_sim. }
row. { unfold Mnemonic32.i_vcmpgepd_xxo, Mnemonic32.i_vcmppd_xxoi, Mnemonic.i_vcmpgepd_xxo, Mnemonic.i_vcmppd_xxoi. row_sim. }
row. { unfold Mnemonic32.i_vcmpgeps_xxo, Mnemonic32.i_vcmpps_xxoi, Mnemonic.i_vcmpgeps_xxo, Mnemonic.i_vcmpps_xxoi. row_sim. }
row. { unfold Mnemonic32.i_vcmpgesd_xxo, Mnemonic32.i_vcmpsd_xxoi, Mnemonic.i_vcmpgesd_xxo, Mnemonic.i_vcmpsd_xxoi. row_sim. }
row. { unfold Mnemonic32.i_vcmpgess_xxo, Mnemonic32.i_vcmpss_xxoi, Mnemonic.i_vcmpgess_xxo, Mnemonic.i_vcmpss_xxoi. row_sim. }
row. { unfold Mnemonic32.i_vcmpgt_oqpd_xxo, Mnemonic32.i_vcmppd_xxoi, Mnemonic.i_vcmpgt_oqpd_xxo, Mnemonic.i_vcmppd_xxoi. row_sim. }
row. { unfold Mnemonic32.i_vcmpgt_oqps_xxo, Mnemonic32.i_vcmpps_xxoi, Mnemonic.i_vcmpgt_oqps_xxo, Mnemonic.i_vcmpps_xxoi. row_sim. }
row. { unfold Mnemonic32.i_vcmpgt_oqsd_xxo, Mnemonic32.i_vcmpsd_xxoi, Mnemonic.i_vcmpgt_oqsd_xxo, Mnemonic.i_vcmpsd_xxoi. row_sim. }
row. { unfold Mnemonic32.i_vcmpgt_oqss_xxo, Mnemonic32.i_vcmpss_xxoi, Mnemonic.i_vcmpgt_oqss_xxo, Mnemonic.i_vcmpss_xxoi. row_sim. }
row. { unfold Mnemonic32.i_vcmpgtpd_xxo, Mnemonic32.i_vcmppd_xxoi, Mnemonic.i_vcmpgtpd_xxo, Mnemonic.i_vcmppd_xxoi. row_sim. }
row. { unfold Mnemonic32.i_vcmpgtps_xxo, Mnemonic32.i_vcmpps_xxoi, Mnemonic.i_vcmpgtps_xxo, Mnemonic.i_vcmpps_xxoi. row_sim. }
row. { unfold Mnemonic32.i_vcmpgtsd_xxo, Mnemonic32.i_vcmpsd_xxoi, Mnemonic.i_vcmpgtsd_xxo, Mnemonic.i_vcmpsd_xxoi. row_sim. }
row. { unfold Mnemonic32.i_vcmpgtss_xxo, Mnemonic32.i_vcmpss_xxoi, Mnemonic.i_vcmpgtss_xxo, Mnemonic.i_vcmpss_xxoi. row_sim. }
apply Forall_nil. Qed.
Definition sims32 : list b_entry :=
  [mkB "vcmple_oqpd_xxo" (fun v => let (o, a, r, n, e, s) := v in Mnemonic32.i_vcmple_oqpd_xxo (r 0) (r 1) (o 2))
     (fun v => let (o, a, r, n, e, s) := v in Mnemonic.i_vcmple_oqpd_xxo (r 0) (r 1) (widen_op (o 2)));
   mkB "vcmple_oqps_xxo" (fun v => let (o, a, r, n, e, s) := v in Mnemonic32.i_vcmple_oqps_xxo (r 0) (r 1) (o 2))
     (fun v => let (o, a, r, n, e, s) := v in Mnemonic.i_vcmple_oqps_xxo (r 0) (r 1) (widen_op (o 2)));
   mkB "vcmple_oqsd_xxo" (fun v => let (o, a, r, n, e, s) := v in Mnemonic32.i_vcmple_oqsd_xxo (r 0) (r 1) (o 2))
     (fun v => let (o, a, r, n, e, s) := v in Mnemonic.i_vcmple_oqsd_xxo (r 0) (r 1) (widen_op (o 2)));
   mkB "vcmple_oqss_xxo" (fun v => let (o, a, r, n, e, s) := v in Mnemonic32.i_vcmple_oqss_xxo (r 0) (r 1) (o 2))
     (fun v => let (o, a, r, n, e, s) := v in Mnemonic.i_vcmple_oqss_xxo (r 0) (r 1) (widen_op (o 2)));
   mkB "vcmplepd_xxo" (fun v => let (o, a, r, n, e, s) := v in Mnemonic32.i_vcmplepd_xxo (r 0) (r 1) (o 2))
     (fun v => let (o, a, r, n, e, s) := v in Mnemonic.i_vcmplepd_xxo (r 0) (r 1) (widen_op (o 2)));
   mkB "vcmpleps_xxo" (fun v => let (o, a, r, n, e, s) := v in Mnemonic32.i_vcmpleps_xxo (r 0) (r 1) (o 2))
     (fun v => let (o, a, r, n, e, s) := v in Mnemonic.i_vcmpleps_xxo (r 0) (r 1) (widen_op (o 2)));
   mkB "vcmplesd_xxo" (fun v => let (o, a, r, n, e, s) := v in Mnemonic32.i_vcmplesd_xxo (r 0) (r 1) (o 2))
     (fun v => let (o, a, r, n, e, s) := v in Mnemonic.i_vcmplesd_xxo (r 0) (r 1) (widen_op (o 2)));
   mkB "vcmpless_xxo" (fun v => let (o, a, r, n, e, s) := v in Mnemonic32.i_vcmpless_xxo (r 0) (r 1) (o 2))
     (fun v => let (o, a, r, n, e, s) := v in Mnemonic.i_vcmpless_xxo (r 0) (r 1) (widen_op (o 2)));
   mkB "vcmplt_oqpd_xxo" (fun v => let (o, a, r, n, e, s) := v in Mnemonic32.i_vcmplt_oqpd_xxo (r 0) (r 1) (o 2))
     (fun v => let (o, a, r, n, e, s) := v in Mnemonic.i_vcmplt_oqpd_xxo (r 0) (r 1) (widen_op (o 2)));
   mkB "vcmplt_oqps_xxo" (fun v => let (o, a, r, n, e, s) := v in Mnemonic32.i_vcmplt_oqps_xxo (r 0) (r 1) (o 2))
     (fun v => let (o, a, r, n, e, s) := v in Mnemonic.i_vcmplt_oqps_xxo (r 0) (r 1) (widen_op (o 2)));
   mkB "vcmplt_oqsd_xxo" (fun v => let (o, a, r, n, e, s) := v in Mnemonic32.i_vcmplt_oqsd_xxo (r 0) (r 1) (o 2))
     (fun v => let (o, a, r, n, e, s) := v in Mnemonic.i_vcmplt_oqsd_xxo (r 0) (r 1) (widen_op (o 2)));
   mkB "vcmplt_oqss_xxo" (fun v => let (o, a, r, n, e, s) := v in Mnemonic32.i_vcmplt_oqss_xxo (r 0) (r 1) (o 2))
     (fun v => let (o, a, r, n, e, s) := v in Mnemonic.i_vcmplt_oqss_xxo (r 0) (r 1) (widen_op (o 2)));
   mkB "vcmpltpd_xxo" (fun v => let (o, a, r, n, e, s) := v in Mnemonic32.i_vcmpltpd_xxo (r 0) (r 1) (o 2))
     (fun v => let (o, a, r, n, e, s) := v in Mnemonic.i_vcmpltpd_xxo (r 0) (r 1) (widen_op (o 2)));
   mkB "vcmpltps_xxo" (fun v => let (o, a, r, n, e, s) := v in Mnemonic32.i_vcmpltps_xxo (r 0) (r 1) (o 2))
     (fun v => let (o, a, r, n, e, s) := v in Mnemonic.i_vcmpltps_xxo (r 0) (r 1) (widen_op (o 2)));
   mkB "vcmpltsd_xxo" (fun v => let (o, a, r, n, e, s) := v in Mnemonic32.i_vcmpltsd_xxo (r 0) (r 1) (o 2))
     (fun v => let (o, a, r, n, e, s) := v in Mnemonic.i_vcmpltsd_xxo (r 0) (r 1) (widen_op (o 2)));
   mkB "vcmpltss_xxo" (fun v => let (o, a, r, n, e, s) := v in Mnemonic32.i_vcmpltss_xxo (r 0) (r 1) (o 2))
     (fun v => let (o, a, r, n, e, s) := v in Mnemonic.i_vcmpltss_xxo (r 0) (r 1) (widen_op (o 2)));
   mkB "vcmpneq_oqpd_xxo" (fun v => let (o, a, r, n, e, s) := v in Mnemonic32.i_vcmpneq_oqpd_xxo (r 0) (r 1) (o 2))
     (fun v => let (o, a, r, n, e, s) := v in Mnemonic.i_vcmpneq_oqpd_xxo (r 0) (r 1) (widen_op (o 2)));
   mkB "vcmpneq_oqps_xxo" (fun v => let (o, a, r, n, e, s) := v in Mnemonic32.i_vcmpneq_oqps_xxo (r 0) (r 1) (o 2))
     (fun v => let (o, a, r, n, e, s) := v in Mnemonic.i_vcmpneq_oqps_xxo (r 0) (r 1) (widen_op (o 2)));
   mkB "vcmpneq_oqsd_xxo" (fun v => let (o, a, r, n, e, s) := v in Mnemonic32.i_vcmpneq_oqsd_xxo (r 0) (r 1) (o 2))
     (fun v => let (o, a, r, n, e, s) := v in Mnemonic.i_vcmpneq_oqsd_xxo (r 0) (r 1) (widen_op (o 2)));
   mkB "vcmpneq_oqss_xxo" (fun v => let (o, a, r, n, e, s) := v in Mnemonic32.i_vcmpneq_oqss_xxo (r 0) (r 1) (o 2))
     (fun v => let (o, a, r, n, e, s) := v in Mnemonic.i_vcmpneq_oqss_xxo (r 0) (r 1) (widen_op (o 2)));
   mkB "vcmpneq_ospd_xxo" (fun v => let (o, a, r, n, e, s) := v in Mnemonic32.i_vcmpneq_ospd_xxo (r 0) (r 1) (o 2))
     (fun v => let (o, a, r, n, e, s) := v in Mnemonic.i_vcmpneq_ospd_xxo (r 0) (r 1) (widen_op (o 2)));
   mkB "vcmpneq_osps_xxo" (fun v => let (o, a, r, n, e, s) := v in Mnemonic32.i_vcmpneq_osps_xxo (r 0) (r 1) (o 2))
     (fun v => let (o, a, r, n, e, s) := v in Mnemonic.i_vcmpneq_osps_xxo (r 0) (r 1) (widen_op (o 2)));
   mkB "vcmpneq_ossd_xxo" (fun v => let (o, a, r, n, e, s) := v in Mnemonic32.i_vcmpneq_ossd_xxo (r 0) (r 1) (o 2))
     (fun v => let (o, a, r, n, e, s) := v in Mnemonic.i_vcmpneq_ossd_xxo (r 0) (r 1) (widen_op (o 2)));
   mkB "vcmpneq_osss_xxo" (fun v => let (o, a, r, n, e, s) := v in Mnemonic32.i_vcmpneq_osss_xxo (r 0) (r 1) (o 2))
     (fun v => let (o, a, r, n, e, s) := v in Mnemonic.i_vcmpneq_osss_xxo (r 0) (r 1) (widen_op (o 2)));
   mkB "vcmpneq_uspd_xxo" (fun v => let (o, a, r, n, e, s) := v in Mnemonic32.i_vcmpneq_uspd_xxo (r 0) (r 1) (o 2))
     (fun v => let (o, a, r, n, e, s) := v in Mnemonic.i_vcmpneq_uspd_xxo (r 0) (r 1) (widen_op (o 2)))].
Lemma sims32_ok : Forall same sims32.
Proof. unfold sims32.
row. { unfold Mnemonic32.i_vcmple_oqpd_xxo, Mnemonic32.i_vcmppd_xxoi, Mnemonic.i_vcmple_oqpd_xxo, Mnemonic.i_vcmppd_xxoi. row_sim. }
row. { unfold Mnemonic32.i_vcmple_oqps_xxo, Mnemonic32.i_vcmpps_xxoi, Mnemonic.i_vcmple_oqps_xxo, Mnemonic.i_vcmpps_xxoi. row_sim. }
row. { unfold Mnemonic32.i_vcmple_oqsd_xxo, Mnemonic32.i_vcmpsd_xxoi, Mnemonic.i_vcmple_oqsd_xxo, Mnemonic.i_vcmpsd_xxoi. row_sim. }
row. { unfold Mnemonic32.i_vcmple_oqss_xxo, Mnemonic32.i_vcmpss_xxoi, Mnemonic.i_vcmple_oqss_xxo, Mnemonic.i_vcmpss_xxoi. row_sim. }
row. { unfold Mnemonic32.i_vcmplepd_xxo, Mnemonic32.i_vcmppd_xxoi, Mnemonic.i_vcmplepd_xxo, Mnemonic.i_vcmppd_xxoi. row_sim. }
row. { unfold Mnemonic32.i_vcmpleps_xxo, Mnemonic32.i_vcmpps_xxoi, Mnemonic.i_vcmpleps_xxo, Mnemonic.i_vcmpps_xxoi. row_sim. }
row. { unfold Mnemonic32.i_vcmplesd_xxo, Mnemonic32.i_vcmpsd_xxoi, Mnemonic.i_vcmplesd_xxo, Mnemonic.i_vcmpsd_xxoi. row_sim. }
row. { unfold Mnemonic32.i_vcmpless_xxo, Mnemonic32.i_vcmpss_xxoi, Mnemonic.i_vcmpless_xxo, Mnemonic.i_vcmpss_xxoi. row_sim. }
row. { unfold Mnemonic32.i_vcmplt_oqpd_xxo, Mnemonic32.i_vcmppd_xxoi, Mnemonic.i_vcmplt_oqpd_xxo, Mnemonic.i_vcmppd_xxoi. row_sim. }
row. { unfold Mnemonic32.i_vcmplt_oqps_xxo, Mnemonic32.i_vcmpps_xxoi, Mnemonic.i_vcmplt_oqps_xxo, Mnemonic.i_vcmpps_xxoi. row_sim. }
row. { unfold Mnemonic32.i_vcmplt_oqsd_xxo, Mnemonic32.i_vcmpsd_xxoi, Mnemonic.i_vcmplt_oqsd_xxo, Mnemonic.i_vcmpsd_xxoi. row_sim. }
row. { unfold Mnemonic32.i_vcmplt_oqss_xxo, Mnemonic32.i_vcmpss_xxoi, Mnemonic.i_vcmplt_oqss_xxo, Mnemonic.i_vcmpss_xxoi. row_sim. }
row. { unfold Mnemonic32.i_vcmpltpd_xxo, Mnemonic32.i_vcmppd_xxoi, Mnemonic.i_vcmpltpd_xxo, Mnemonic.i_vcmppd_xxoi. row_sim. }
row. { unfold Mnemonic32.i_vcmpltps_xxo, Mnemonic32.i_vcmpps_xxoi, Mnemonic.i_vcmpltps_xxo, Mnemonic.i_vcmpps_xxoi. row_sim. }
row. { unfold Mnemonic32.i_vcmpltsd_xxo, Mnemonic32.i_vcmpsd_xxoi, Mnemonic.i_vcmpltsd_xxo, Mnemonic.i_vcmpsd_xxoi. row_sim. }
row. { unfold Mnemonic32.i_vcmpltss_xxo, Mnemonic32.i_vcmpss_xxoi, Mnemonic.i_vcmpltss_xxo, Mnemonic.i_vcmpss_xxoi. row_sim. }
row. { unfold Mnemonic32.i_vcmpneq_oqpd_xxo, Mnemonic32.i_vcmppd_xxoi, Mnemonic.i_vcmpneq_oqpd_xxo, Mnemonic.i_vcmppd_xxoi. row_sim. }
row. { unfold Mnemonic32.i_vcmpneq_oqps_xxo, Mnemonic32.i_vcmpps_xxoi, Mnemonic.i_vcmpneq_oqps_xxo, Mnemonic.i_vcmpps_xxoi. row_sim. }
row. { unfold Mnemonic32.i_vcmpneq_oqsd_xxo, Mnemonic32.i_vcmpsd_xxoi, Mnemonic.i_vcmpneq_oqsd_xxo, Mnemonic.i_vcmpsd_xxoi. row_sim. }
row. { unfold Mnemonic32.i_vcmpneq_oqss_xxo, Mnemonic32.i_vcmpss_xxoi, Mnemonic.i_vcmpneq_oqss_xxo, Mnemonic.i_vcmpss_xxoi. row_sim. }
row. { unfold Mnemonic32.i_vcmpneq_ospd_xxo, Mnemonic32.i_vcmppd_xxoi, Mnemonic.i_vcmpneq_ospd_xxo, Mnemonic.i_vcmppd_xxoi. row_sim. }
row. { unfold Mnemonic32.i_vcmpneq_osps_xxo, Mnemonic32.i_vcmpps_xxoi, Mnemonic.i_vcmpneq_osps_xxo, Mnemonic.i_vcmpps_xxoi. row_sim. }
row. { unfold Mnemonic32.i_vcmpneq_ossd_xxo, Mnemonic32.i_vcmpsd_xxoi, Mnemonic.i_vcmpneq_ossd_xxo, Mnemonic.i_vcmpsd_xxoi. row_sim. }
row. { unfold Mnemonic32.i_vcmpneq_osss_xxo, Mnemonic32.i_vcmpss_xxoi, Mnemonic.i_vcmpneq_osss_xxo, Mnemonic.i_vcmpss_xxoi. row_sim. }
row. { unfold Mnemonic32.i_vcmpneq_uspd_xxo, Mnemonic32.i_vcmppd_xxoi, Mnemonic.i_vcmpneq_uspd_xxo, Mnemonic.i_vcmppd_xxoi. row_sim. }
apply Forall_nil. Qed.
Definition sims33 : list b_entry :=
  [mkB "vcmpneq_usps_xxo" (fun v => let (o, a, r, n, e, s) := v in Mnemonic32.i_vcmpneq_usps_xxo (r 0) (r 1) (o 2))
     (fun v => let (o, a, r, n, e, s) := v in Mnemonic.i_vcmpneq_usps_xxo (r 0) (r 1) (widen_op (o 2)));
   mkB "vcmpneq_ussd_xxo" (fun v => let (o, a, r, n, e, s) := v in Mnemonic32.i_vcmpneq_ussd_xxo (r 0) (r 1) (o 2))
     (fun v => let (o, a, r, n, e, s) := v in Mnemonic.i_vcmpneq_ussd_xxo (r 0) (r 1) (widen_op (o 2)));
   mkB "vcmpneq_usss_xxo" (fun v => let (o, a, r, n, e, s) := v in Mnemonic32.i_vcmpneq_usss_xxo (r 0) (r 1) (o 2))
     (fun v => let (o, a, r, n, e, s) := v in Mnemonic.i_vcmpneq_usss_xxo (r 0) (r 1) (widen_op (o 2)));
   mkB "vcmpneqpd_xxo" (fun v => let (o, a, r, n, e, s) := v in Mnemonic32.i_vcmpneqpd_xxo (r 0) (r 1) (o 2))
     (fun v => let (o, a, r, n, e, s) := v in Mnemonic.i_vcmpneqpd_xxo (r 0) (r 1) (widen_op (o 2)));
   mkB "vcmpneqps_xxo" (fun v => let (o, a, r, n, e, s) := v in Mnemonic32.i_vcmpneqps_xxo (r 0) (r 1) (o 2))
     (fun v => let (o, a, r, n, e, s) := v in Mnemonic.i_vcmpneqps_xxo (r 0) (r 1) (widen_op (o 2)));
   mkB "vcmpneqsd_xxo" (fun v => let (o, a, r, n, e, s) := v in Mnemonic32.i_vcmpneqsd_xxo (r 0) (r 1) (o 2))
     (fun v => let (o, a, r, n, e, s) := v in Mnemonic.i_vcmpneqsd_xxo (r 0) (r 1) (widen_op (o 2)));
   mkB "vcmpneqss_xxo" (fun v => let (o, a, r, n, e, s) := v in Mnemonic32.i_vcmpneqss_xxo (r 0) (r 1) (o 2))
     (fun v => let (o, a, r, n, e, s) := v in Mnemonic.i_vcmpneqss_xxo (r 0) (r 1) (widen_op (o 2)));
   mkB "vcmpnge_uqpd_xxo" (fun v => let (o, a, r, n, e, s) := v in Mnemonic32.i_vcmpnge_uqpd_xxo (r 0) (r 1) (o 2))
     (fun v => let (o, a, r, n, e, s) := v in Mnemonic.i_vcmpnge_uqpd_xxo (r 0) (r 1) (widen_op (o 2)));
   mkB "vcmpnge_uqps_xxo" (fun v => let (o, a, r, n, e, s) := v in Mnemonic32.i_vcmpnge_uqps_xxo (r 0) (r 1) (o 2))
     (fun v => let (o, a, r, n, e, s) := v in Mnemonic.i_vcmpnge_uqps_xxo (r 0) (r 1) (widen_op (o 2)));
   mkB "vcmpnge_uqsd_xxo" (fun v => let (o, a, r, n, e, s) := v in Mnemonic32.i_vcmpnge_uqsd_xxo (r 0) (r 1) (o 2))
     (fun v => let (o, a, r, n, e, s) := v in Mnemonic.i_vcmpnge_uqsd_xxo (r 0) (r 1) (widen_op (o 2)));
   mkB "vcmpnge_uqss_xxo" (fun v => let (o, a, r, n, e, s) := v in Mnemonic32.i_vcmpnge_uqss_xxo (r 0) (r 1) (o 2))
     (fun v => let (o, a, r, n, e, s) := v in Mnemonic.i_vcmpnge_uqss_xxo (r 0) (r 1) (widen_op (o 2)));
   mkB "vcmpngepd_xxo" (fun v => let (o, a, r, n, e, s) := v in Mnemonic32.i_vcmpngepd_xxo (r 0) (r 1) (o 2))
     (fun v => let (o, a, r, n, e, s) := v in Mnemonic.i_vcmpngepd_xxo (r 0) (r 1) (widen_op (o 2)));
   mkB "vcmpngeps_xxo" (fun v => let (o, a, r, n, e, s) := v in Mnemonic32.i_vcmpngeps_xxo (r 0) (r 1) (o 2))
     (fun v => let (o, a, r, n, e, s) := v in Mnemonic.i_vcmpngeps_xxo (r 0) (r 1) (widen_op (o 2)));
   mkB "vcmpngesd_xxo" (fun v => let (o, a, r, n, e, s) := v in Mnemonic32.i_vcmpngesd_xxo (r 0) (r 1) (o 2))
     (fun v => let (o, a, r, n, e, s) := v in Mnemonic.i_vcmpngesd_xxo (r 0) (r 1) (widen_op (o 2)));
   mkB "vcmpngess_xxo" (fun v => let (o, a, r, n, e, s) := v in Mnemonic32.i_vcmpngess_xxo (r 0) (r 1) (o 2))
     (fun v => let (o, a, r, n, e, s) := v in Mnemonic.i_vcmpngess_xxo (r 0) (r 1) (widen_op (o 2)));
   mkB "vcmpngt_uqpd_xxo" (fun v => let (o, a, r, n, e, s) := v in Mnemonic32.i_vcmpngt_uqpd_xxo (r 0) (r 1) (o 2))
     (fun v => let (o, a, r, n, e, s) := v in Mnemonic.i_vcmpngt_uqpd_xxo (r 0) (r 1) (widen_op (o 2)));
   mkB "vcmpngt_uqps_xxo" (fun v => let (o, a, r, n, e, s) := v in Mnemonic32.i_vcmpngt_uqps_xxo (r 0) (r 1) (o 2))
     (fun v => let (o, a, r, n, e, s) := v in Mnemonic.i_vcmpngt_uqps_xxo (r 0) (r 1) (widen_op (o 2)));
   mkB "vcmpngt_uqsd_xxo" (fun v => let (o, a, r, n, e, s) := v in Mnemonic32.i_vcmpngt_uqsd_xxo (r 0) (r 1) (o 2))
     (fun v => let (o, a, r, n, e, s) := v in Mnemonic.i_vcmpngt_uqsd_xxo (r 0) (r 1) (widen_op (o 2)));
   mkB "vcmpngt_uqss_xxo" (fun v => let (o, a, r, n, e, s) := v in Mnemonic32.i_vcmpngt_uqss_xxo (r 0) (r 1) (o 2))
     (fun v => let (o, a, r, n, e, s) := v in Mnemonic.i_vcmpngt_uqss_xxo (r 0) (r 1) (widen_op (o 2)));
   mkB "vcmpngtpd_xxo" (fun v => let (o, a, r, n, e, s) := v in Mnemonic32.i_vcmpngtpd_xxo (r 0) (r 1) (o 2))
     (fun v => let (o, a, r, n, e, s) := v in Mnemonic.i_vcmpngtpd_xxo (r 0) (r 1) (widen_op (o 2)));
   mkB "vcmpngtps_xxo" (fun v => let (o, a, r, n, e, s) := v in Mnemonic32.i_vcmpngtps_xxo (r 0) (r 1) (o 2))
     (fun v => let (o, a, r, n, e, s) := v in Mnemonic.i_vcmpngtps_xxo (r 0) (r 1) (widen_op (o 2)));
   mkB "vcmpngtsd_xxo" (fun v => let (o, a, r, n, e, s) := v in Mnemonic32.i_vcmpngtsd_xxo (r 0) (r 1) (o 2))
     (fun v => let (o, a, r, n, e, s) := v in Mnemonic.i_vcmpngtsd_xxo (r 0) (r 1) (widen_op (o 2)));
   mkB "vcmpngtss_xxo" (fun v => let (o, a, r, n, e, s) := v in Mnemonic32.i_vcmpngtss_xxo (r 0) (r 1) (o 2))
     (fun v => let (o, a, r, n, e, s) := v in Mnemonic.i_vcmpngtss_xxo (r 0) (r 1) (widen_op (o 2)));
   mkB "vcmpnle_uqpd_xxo" (fun v => let (o, a, r, n, e, s) := v in Mnemonic32.i_vcmpnle_uqpd_xxo (r 0) (r 1) (o 2))
     (fun v => let (o, a, r, n, e, s) := v in Mnemonic.i_vcmpnle_uqpd_xxo (r 0) (r 1) (widen_op (o 2)));
   mkB "vcmpnle_uqps_xxo" (fun v => let (o, a, r, n, e, s) := v in Mnemonic32.i_vcmpnle_uqps_xxo (r 0) (r 1) (o 2))
     (fun v => let (o, a, r, n, e, s) := v in Mnemonic.i_vcmpnle_uqps_xxo (r 0) (r 1) (widen_op (o 2)))].
Lemma sims33_ok : Forall same sims33.
Proof. unfold sims33.
row. { unfold Mnemonic32.i_vcmpneq_usps_xxo, Mnemonic32.i_vcmpps_xxoi, Mnemonic.i_vcmpneq_usps_xxo, Mnemonic.i_vcmpps_xxoi. row_sim. }
row. { unfold Mnemonic32.i_vcmpneq_ussd_xxo, Mnemonic32.i_vcmpsd_xxoi, Mnemonic.i_vcmpneq_ussd_xxo, Mnemonic.i_vcmpsd_xxoi. row_sim. }
row. { unfold Mnemonic32.i_vcmpneq_usss_xxo, Mnemonic32.i_vcmpss_xxoi, Mnemonic.i_vcmpneq_usss_xxo, Mnemonic.i_vcmpss_xxoi. row_sim. }
row. { unfold Mnemonic32.i_vcmpneqpd_xxo, Mnemonic32.i_vcmppd_xxoi, Mnemonic.i_vcmpneqpd_xxo, Mnemonic.i_vcmppd_xxoi. row_sim. }
row. { unfold Mnemonic32.i_vcmpneqps_xxo, Mnemonic32.i_vcmpps_xxoi, Mnemonic.i_vcmpneqps_xxo, Mnemonic.i_vcmpps_xxoi. row_sim. }
row. { unfold Mnemonic32.i_vcmpneqsd_xxo, Mnemonic32.i_vcmpsd_xxoi, Mnemonic.i_vcmpneqsd_xxo, Mnemonic.i_vcmpsd_xxoi. row_sim. }
row. { unfold Mnemonic32.i_vcmpneqss_xxo, Mnemonic32.i_vcmpss_xxoi, Mnemonic.i_vcmpneqss_xxo, Mnemonic.i_vcmpss_xxoi. row_sim. }
row. { unfold Mnemonic32.i_vcmpnge_uqpd_xxo, Mnemonic32.i_vcmppd_xxoi, Mnemonic.i_vcmpnge_uqpd_xxo, Mnemonic.i_vcmppd_xxoi. row_sim. }
row. { unfold Mnemonic32.i_vcmpnge_uqps_xxo, Mnemonic32.i_vcmpps_xxoi, Mnemonic.i_vcmpnge_uqps_xxo, Mnemonic.i_vcmpps_xxoi. row_sim. }
row. { unfold Mnemonic32.i_vcmpnge_uqsd_xxo, Mnemonic32.i_vcmpsd_xxoi, Mnemonic.i_vcmpnge_uqsd_xxo, Mnemonic.i_vcmpsd_xxoi. row_sim. }
row. { unfold Mnemonic32.i_vcmpnge_uqss_xxo, Mnemonic32.i_vcmpss_xxoi, Mnemonic.i_vcmpnge_uqss_xxo, Mnemonic.i_vcmpss_xxoi. row_sim. }
row. { unfold Mnemonic32.i_vcmpngepd_xxo, Mnemonic32.i_vcmppd_xxoi, Mnemonic.i_vcmpngepd_xxo, Mnemonic.i_vcmppd_xxoi. row_sim. }
row. { unfold Mnemonic32.i_vcmpngeps_xxo, Mnemonic32.i_vcmpps_xxoi, Mnemonic.i_vcmpngeps_xxo, Mnemonic.i_vcmpps_xxoi. row_sim. }
row. { unfold Mnemonic32.i_vcmpngesd_xxo, Mnemonic32.i_vcmpsd_xxoi, Mnemonic.i_vcmpngesd_xxo, Mnemonic.i_vcmpsd_xxoi. row_sim. }
row. { unfold Mnemonic32.i_vcmpngess_xxo, Mnemonic32.i_vcmpss_xxoi, Mnemonic.i_vcmpngess_xxo, Mnemonic.i_vcmpss_xxoi. row_sim. }
row. { unfold Mnemonic32.i_vcmpngt_uqpd_xxo, Mnemonic32.i_vcmppd_xxoi, Mnemonic.i_vcmpngt_uqpd_xxo, Mnemonic.i_vcmppd_xxoi. row_sim. }
row. { unfold Mnemonic32.i_vcmpngt_uqps_xxo, Mnemonic32.i_vcmpps_xxoi, Mnemonic.i_vcmpngt_uqps_xxo, Mnemonic.i_vcmpps_xxoi. row_sim. }
row. { unfold Mnemonic32.i_vcmpngt_uqsd_xxo, Mnemonic32.i_vcmpsd_xxoi, Mnemonic.i_vcmpngt_uqsd_xxo, Mnemonic.i_vcmpsd_xxoi. row_sim. }
row. { unfold Mnemonic32.i_vcmpngt_uqss_xxo, Mnemonic32.i_vcmpss_xxoi, Mnemonic.i_vcmpngt_uqss_xxo, Mnemonic.i_vcmpss_xxoi. row_sim. }
row. { unfold Mnemonic32.i_vcmpngtpd_xxo, Mnemonic32.i_vcmppd_xxoi, Mnemonic.i_vcmpngtpd_xxo, Mnemonic.i_vcmppd_xxoi. row_sim. }
row. { unfold Mnemonic32.i_vcmpngtps_xxo, Mnemonic32.i_vcmpps_xxoi, Mnemonic.i_vcmpngtps_xxo, Mnemonic.i_vcmpps_xxoi. row_sim. }
row. { unfold Mnemonic32.i_vcmpngtsd_xxo, Mnemonic32.i_vcmpsd_xxoi, Mnemonic.i_vcmpngtsd_xxo, Mnemonic.i_vcmpsd_xxoi. row_sim. }
row. { unfold Mnemonic32.i_vcmpngtss_xxo, Mnemonic32.i_vcmpss_xxoi, Mnemonic.i_vcmpngtss_xxo, Mnemonic.i_vcmpss_xxoi. row_sim. }
row. { unfold Mnemonic32.i_vcmpnle_uqpd_xxo, Mnemonic32.i_vcmppd_xxoi, Mnemonic.i_vcmpnle_uqpd_xxo, Mnemonic.i_vcmppd_xxoi. row_sim. }
row. { unfold Mnemonic32.i_vcmpnle_uqps_xxo, Mnemonic32.i_vcmpps_xxoi, Mnemonic.i_vcmpnle_uqps_xxo, Mnemonic.i_vcmpps_xxoi. row_sim. }
apply Forall_nil. Qed.
Definition sims34 : list b_entry :=
  [mkB "vcmpnle_uqsd_xxo" (fun v => let (o, a, r, n, e, s) := v in Mnemonic32.i_vcmpnle_uqsd_xxo (r 0) (r 1) (o 2))
     (fun v => let (o, a, r, n, e, s) := v in Mnemonic.i_vcmpnle_uqsd_xxo (r 0) (r 1) (widen_op (o 2)));
   mkB "vcmpnle_uqss_xxo" (fun v => let (o, a, r, n, e, s) := v in Mnemonic32.i_vcmpnle_uqss_xxo (r 0) (r 1) (o 2))
     (fun v => let (o, a, r, n, e, s) := v in Mnemonic.i_vcmpnle_uqss_xxo (r 0) (r 1) (widen_op (o 2)));
   mkB "vcmpnlepd_xxo" (fun v => let (o, a, r, n, e, s) := v in Mnemonic32.i_vcmpnlepd_xxo (r 0) (r 1) (o 2))
     (fun v => let (o, a, r, n, e, s) := v in Mnemonic.i_vcmpnlepd_xxo (r 0) (r 1) (widen_op (o 2)));
   mkB "vcmpnleps_xxo" (fun v => let (o, a, r, n, e, s) := v in Mnemonic32.i_vcmpnleps_xxo (r 0) (r 1) (o 2))
     (fun v => let (o, a, r, n, e, s) := v in Mnemonic.i_vcmpnleps_xxo (r 0) (r 1) (widen_op (o 2)));
   mkB "vcmpnlesd_xxo" (fun v => let (o, a, r, n, e, s) := v in Mnemonic32.i_vcmpnlesd_xxo (r 0) (r 1) (o 2))
     (fun v => let (o, a, r, n, e, s) := v in Mnemonic.i_vcmpnlesd_xxo (r 0) (r 1) (widen_op (o 2)));
   mkB "vcmpnless_xxo" (fun v => let (o, a, r, n, e, s) := v in Mnemonic32.i_vcmpnless_xxo (r 0) (r 1) (o 2))
     (fun v => let (o, a, r, n, e, s) := v in Mnemonic.i_vcmpnless_xxo (r 0) (r 1) (widen_op (o 2)));
   mkB "vcmpnlt_uqpd_xxo" (fun v => let (o, a, r, n, e, s) := v in Mnemonic32.i_vcmpnlt_uqpd_xxo (r 0) (r 1) (o 2))
     (fun v => let (o, a, r, n, e, s) := v in Mnemonic.i_vcmpnlt_uqpd_xxo (r 0) (r 1) (widen_op (o 2)));
   mkB "vcmpnlt_uqps_xxo" (fun v => let (o, a, r, n, e, s) := v in Mnemonic32.i_vcmpnlt_uqps_xxo (r 0) (r 1) (o 2))
     (fun v => let (o, a, r, n, e, s) := v in Mnemonic.i_vcmpnlt_uqps_xxo (r 0) (r 1) (widen_op (o 2)));
   mkB "vcmpnlt_uqsd_xxo" (fun v => let (o, a, r, n, e, s) := v in Mnemonic32.i_vcmpnlt_uqsd_xxo (r 0) (r 1) (o 2))
     (fun v => let (o, a, r, n, e, s) := v in Mnemonic.i_vcmpnlt_uqsd_xxo (r 0) (r 1) (widen_op (o 2)));
   mkB "vcmpnlt_uqss_xxo" (fun v => let (o, a, r, n, e, s) := v in Mnemonic32.i_vcmpnlt_uqss_xxo (r 0) (r 1) (o 2))
     (fun v => let (o, a, r, n, e, s) := v in Mnemonic.i_vcmpnlt_uqss_xxo (r 0) (r 1) (widen_op (o 2)));
   mkB "vcmpnltpd_xxo" (fun v => let (o, a, r, n, e, s) := v in Mnemonic32.i_vcmpnltpd_xxo (r 0) (r 1) (o 2))
     (fun v => let (o, a, r, n, e, s) := v in Mnemonic.i_vcmpnltpd_xxo (r 0) (r 1) (widen_op (o 2)));
   mkB "vcmpnltps_xxo" (fun v => let (o, a, r, n, e, s) := v in Mnemonic32.i_vcmpnltps_xxo (r 0) (r 1) (o 2))
     (fun v => let (o, a, r, n, e, s) := v in Mnemonic.i_vcmpnltps_xxo (r 0) (r 1) (widen_op (o 2)));
   mkB "vcmpnltsd_xxo" (fun v => let (o, a, r, n, e, s) := v in Mnemonic32.i_vcmpnltsd_xxo (r 0) (r 1) (o 2))
     (fun v => let (o, a, r, n, e, s) := v in Mnemonic.i_vcmpnltsd_xxo (r 0) (r 1) (widen_op (o 2)));
   mkB "vcmpnltss_xxo" (fun v => let (o, a, r, n, e, s) := v in Mnemonic32.i_vcmpnltss_xxo (r 0) (r 1) (o 2))
     (fun v => let (o, a, r, n, e, s) := v in Mnemonic.i_vcmpnltss_xxo (r 0) (r 1) (widen_op (o 2)));
   mkB "vcmpord_spd_xxo" (fun v => let (o, a, r, n, e, s) := v in Mnemonic32.i_vcmpord_spd_xxo (r 0) (r 1) (o 2))
     (fun v => let (o, a, r, n, e, s) := v in Mnemonic.i_vcmpord_spd_xxo (r 0) (r 1) (widen_op (o 2)));
   mkB "vcmpord_sps_xxo" (fun v => let (o, a, r, n, e, s) := v in Mnemonic32.i_vcmpord_sps_xxo (r 0) (r 1) (o 2))
     (fun v => let (o, a, r, n, e, s) := v in Mnemonic.i_vcmpord_sps_xxo (r 0) (r 1) (widen_op (o 2)));
   mkB "vcmpord_ssd_xxo" (fun v => let (o, a, r, n, e, s) := v in Mnemonic32.i_vcmpord_ssd_xxo (r 0) (r 1) (o 2))
     (fun v => let (o, a, r, n, e, s) := v in Mnemonic.i_vcmpord_ssd_xxo (r 0) (r 1) (widen_op (o 2)));
   mkB "vcmpord_sss_xxo" (fun v => let (o, a, r, n, e, s) := v in Mnemonic32.i_vcmpord_sss_xxo (r 0) (r 1) (o 2))
     (fun v => let (o, a, r, n, e, s) := v in Mnemonic.i_vcmpord_sss_xxo (r 0) (r 1) (widen_op (o 2)));
   mkB "vcmpordpd_xxo" (fun v => let (o, a, r, n, e, s) := v in Mnemonic32.i_vcmpordpd_xxo (r 0) (r 1) (o 2))
     (fun v => let (o, a, r, n, e, s) := v in Mnemonic.i_vcmpordpd_xxo (r 0) (r 1) (widen_op (o 2)));
   mkB "vcmpordps_xxo" (fun v => let (o, a, r, n, e, s) := v in Mnemonic32.i_vcmpordps_xxo (r 0) (r 1) (o 2))
     (fun v => let (o, a, r, n, e, s) := v in Mnemonic.i_vcmpordps_xxo (r 0) (r 1) (widen_op (o 2)));
   mkB "vcmpordsd_xxo" (fun v => let (o, a, r, n, e, s) := v in Mnemonic32.i_vcmpordsd_xxo (r 0) (r 1) (o 2))
     (fun v => let (o, a, r, n, e, s) := v in Mnemonic.i_vcmpordsd_xxo (r 0) (r 1) (widen_op (o 2)));
   mkB "vcmpordss_xxo" (fun v => let (o, a, r, n, e, s) := v in Mnemonic32.i_vcmpordss_xxo (r 0) (r 1) (o 2))
     (fun v => let (o, a, r, n, e, s) := v in Mnemonic.i_vcmpordss_xxo (r 0) (r 1) (widen_op (o 2)));
   mkB "vcmptrue_uspd_xxo" (fun v => let (o, a, r, n, e, s) := v in Mnemonic32.i_vcmptrue_uspd_xxo (r 0) (r 1) (o 2))
     (fun v => let (o, a, r, n, e, s) := v in Mnemonic.i_vcmptrue_uspd_xxo (r 0) (r 1) (widen_op (o 2)));
   mkB "vcmptrue_usps_xxo" (fun v => let (o, a, r, n, e, s) := v in Mnemonic32.i_vcmptrue_usps_xxo (r 0) (r 1) (o 2))
     (fun v => let (o, a, r, n, e, s) := v in Mnemonic.i_vcmptrue_usps_xxo (r 0) (r 1) (widen_op (o 2)));
   mkB "vcmptrue_ussd_xxo" (fun v => let (o, a, r, n, e, s) := v in Mnemonic32.i_vcmptrue_ussd_xxo (r 0) (r 1) (o 2))
     (fun v => let (o, a, r, n, e, s) := v in Mnemonic.i_vcmptrue_ussd_xxo (r 0) (r 1) (widen_op (o 2)))].
Lemma sims34_ok : Forall same sims34.
Proof. unfold sims34.
row. { unfold Mnemonic32.i_vcmpnle_uqsd_xxo, Mnemonic32.i_vcmpsd_xxoi, Mnemonic.i_vcmpnle_uqsd_xxo, Mnemonic.i_vcmpsd_xxoi. row_sim. }
row. { unfold Mnemonic32.i_vcmpnle_uqss_xxo, Mnemonic32.i_vcmpss_xxoi, Mnemonic.i_vcmpnle_uqss_xxo, Mnemonic.i_vcmpss_xxoi. row_sim. }
row. { unfold Mnemonic32.i_vcmpnlepd_xxo, Mnemonic32.i_vcmppd_xxoi, Mnemonic.i_vcmpnlepd_xxo, Mnemonic.i_vcmppd_xxoi. row_sim. }
row. { unfold Mnemonic32.i_vcmpnleps_xxo, Mnemonic32.i_vcmpps_xxoi, Mnemonic.i_vcmpnleps_xxo, Mnemonic.i_vcmpps_xxoi. row_sim. }
row. { unfold Mnemonic32.i_vcmpnlesd_xxo, Mnemonic32.i_vcmpsd_xxoi, Mnemonic.i_vcmpnlesd_xxo, Mnemonic.i_vcmpsd_xxoi. row_sim. }
row. { unfold Mnemonic32.i_vcmpnless_xxo, Mnemonic32.i_vcmpss_xxoi, Mnemonic.i_vcmpnless_xxo, Mnemonic.i_vcmpss_xxoi. row_sim. }
row. { unfold Mnemonic32.i_vcmpnlt_uqpd_xxo, Mnemonic32.i_vcmppd_xxoi, Mnemonic.i_vcmpnlt_uqpd_xxo, Mnemonic.i_vcmppd_xxoi. row_sim. }
row. { unfold Mnemonic32.i_vcmpnlt_uqps_xxo, Mnemonic32.i_vcmpps_xxoi, Mnemonic.i_vcmpnlt_uqps_xxo, Mnemonic.i_vcmpps_xxoi. row_sim. }
row. { unfold Mnemonic32.i_vcmpnlt_uqsd_xxo, Mnemonic32.i_vcmpsd_xxoi, Mnemonic.i_vcmpnlt_uqsd_xxo, Mnemonic.i_vcmpsd_xxoi. row_sim. }
row. { unfold Mnemonic32.i_vcmpnlt_uqss_xxo, Mnemonic32.i_vcmpss_xxoi, Mnemonic.i_vcmpnlt_uqss_xxo, Mnemonic.i_vcmpss_xxoi. row_sim. }
row. { unfold Mnemonic32.i_vcmpnltpd_xxo, Mnemonic32.i_vcmppd_xxoi, Mnemonic.i_vcmpnltpd_xxo, Mnemonic.i_vcmppd_xxoi. row_sim. }
row. { unfold Mnemonic32.i_vcmpnltps_xxo, Mnemonic32.i_vcmpps_xxoi, Mnemonic.i_vcmpnltps_xxo, Mnemonic.i_vcmpps_xxoi. row_sim. }
row. { unfold Mnemonic32.i_vcmpnltsd_xxo, Mnemonic32.i_vcmpsd_xxoi, Mnemonic.i_vcmpnltsd_xxo, Mnemonic.i_vcmpsd_xxoi. row_sim. }
row. { unfold Mnemonic32.i_vcmpnltss_xxo, Mnemonic32.i_vcmpss_xxoi, Mnemonic.i_vcmpnltss_xxo, Mnemonic.i_vcmpss_xxoi. row_sim. }
row. { unfold Mnemonic32.i_vcmpord_spd_xxo, Mnemonic32.i_vcmppd_xxoi, Mnemonic.i_vcmpord_spd_xxo, Mnemonic.i_vcmppd_xxoi. row_sim. }
row. { unfold Mnemonic32.i_vcmpord_sps_xxo, Mnemonic32.i_vcmpps_xxoi, Mnemonic.i_vcmpord_sps_xxo, Mnemonic.i_vcmpps_xxoi. row_sim. }
row. { unfold Mnemonic32.i_vcmpord_ssd_xxo, Mnemonic32.i_vcmpsd_xxoi, Mnemonic.i_vcmpord_ssd_xxo, Mnemonic.i_vcmpsd_xxoi. row_sim. }
row. { unfold Mnemonic32.i_vcmpord_sss_xxo, Mnemonic32.i_vcmpss_xxoi, Mnemonic.i_vcmpord_sss_xxo, Mnemonic.i_vcmpss_xxoi. row_sim. }
row. { unfold Mnemonic32.i_vcmpordpd_xxo, Mnemonic32.i_vcmppd_xxoi, Mnemonic.i_vcmpordpd_xxo, Mnemonic.i_vcmppd_xxoi. row_sim. }
row. { unfold Mnemonic32.i_vcmpordps_xxo, Mnemonic32.i_vcmpps_xxoi, Mnemonic.i_vcmpordps_xxo, Mnemonic.i_vcmpps_xxoi. row_sim. }
row. { unfold Mnemonic32.i_vcmpordsd_xxo, Mnemonic32.i_vcmpsd_xxoi, Mnemonic.i_vcmpordsd_xxo, Mnemonic.i_vcmpsd_xxoi. row_sim. }
row. { unfold Mnemonic32.i_vcmpordss_xxo, Mnemonic32.i_vcmpss_xxoi, Mnemonic.i_vcmpordss_xxo, Mnemonic.i_vcmpss_xxoi. row_sim. }
row. { unfold Mnemonic32.i_vcmptrue_uspd_xxo, Mnemonic32.i_vcmppd_xxoi, Mnemonic.i_vcmptrue_uspd_xxo, Mnemonic.i_vcmppd_xxoi. row_sim. }
row. { unfold Mnemonic32.i_vcmptrue_usps_xxo, Mnemonic32.i_vcmpps_xxoi, Mnemonic.i_vcmptrue_usps_xxo, Mnemonic.i_vcmpps_xxoi. row_sim. }
row. { unfold Mnemonic32.i_vcmptrue_ussd_xxo, Mnemonic32.i_vcmpsd_xxoi, Mnemonic.i_vcmptrue_ussd_xxo, Mnemonic.i_vcmpsd_xxoi. row_sim. }
apply Forall_nil. Qed.
Definition sims35 : list b_entry :=
  [mkB "vcmptrue_usss_xxo" (fun v => let (o, a, r, n, e, s) := v in Mnemonic32.i_vcmptrue_usss_xxo (r 0) (r 1) (o 2))
     (fun v => let (o, a, r, n, e, s) := v in Mnemonic.i_vcmptrue_usss_xxo (r 0) (r 1) (widen_op (o 2)));
   mkB "vcmptruepd_xxo" (fun v => let (o, a, r, n, e, s) := v in Mnemonic32.i_vcmptruepd_xxo (r 0) (r 1) (o 2))
     (fun v => let (o, a, r, n, e, s) := v in Mnemonic.i_vcmptruepd_xxo (r 0) (r 1) (widen_op (o 2)));
   mkB "vcmptrueps_xxo" (fun v => let (o, a, r, n, e, s) := v in Mnemonic32.i_vcmptrueps_xxo (r 0) (r 1) (o 2))
     (fun v => let (o, a, r, n, e, s) := v in Mnemonic.i_vcmptrueps_xxo (r 0) (r 1) (widen_op (o 2)));
   mkB "vcmptruesd_xxo" (fun v => let (o, a, r, n, e, s) := v in Mnemonic32.i_vcmptruesd_xxo (r 0) (r 1) (o 2))
     (fun v => let (o, a, r, n, e, s) := v in Mnemonic.i_vcmptruesd_xxo (r 0) (r 1) (widen_op (o 2)));
   mkB "vcmptruess_xxo" (fun v => let (o, a, r, n, e, s) := v in Mnemonic32.i_vcmptruess_xxo (r 0) (r 1) (o 2))
     (fun v => let (o, a, r, n, e, s) := v in Mnemonic.i_vcmptruess_xxo (r 0) (r 1) (widen_op (o 2)));
   mkB "vcmpunord_spd_xxo" (fun v => let (o, a, r, n, e, s) := v in Mnemonic32.i_vcmpunord_spd_xxo (r 0) (r 1) (o 2))
     (fun v => let (o, a, r, n, e, s) := v in Mnemonic.i_vcmpunord_spd_xxo (r 0) (r 1) (widen_op (o 2)));
   mkB "vcmpunord_sps_xxo" (fun v => let (o, a, r, n, e, s) := v in Mnemonic32.i_vcmpunord_sps_xxo (r 0) (r 1) (o 2))
     (fun v => let (o, a, r, n, e, s) := v in Mnemonic.i_vcmpunord_sps_xxo (r 0) (r 1) (widen_op (o 2)));
   mkB "vcmpunord_ssd_xxo" (fun v => let (o, a, r, n, e, s) := v in Mnemonic32.i_vcmpunord_ssd_xxo (r 0) (r 1) (o 2))
     (fun v => let (o, a, r, n, e, s) := v in Mnemonic.i_vcmpunord_ssd_xxo (r 0) (r 1) (widen_op (o 2)));
   mkB "vcmpunord_sss_xxo" (fun v => let (o, a, r, n, e, s) := v in Mnemonic32.i_vcmpunord_sss_xxo (r 0) (r 1) (o 2))
     (fun v => let (o, a, r, n, e, s) := v in Mnemonic.i_vcmpunord_sss_xxo (r 0) (r 1) (widen_op (o 2)));
   mkB "vcmpunordpd_xxo" (fun v => let (o, a, r, n, e, s) := v in Mnemonic32.i_vcmpunordpd_xxo (r 0) (r 1) (o 2))
     (fun v => let (o, a, r, n, e, s) := v in Mnemonic.i_vcmpunordpd_xxo (r 0) (r 1) (widen_op (o 2)));
   mkB "vcmpunordps_xxo" (fun v => let (o, a, r, n, e, s) := v in Mnemonic32.i_vcmpunordps_xxo (r 0) (r 1) (o 2))
     (fun v => let (o, a, r, n, e, s) := v in Mnemonic.i_vcmpunordps_xxo (r 0) (r 1) (widen_op (o 2)));
   mkB "vcmpunordsd_xxo" (fun v => let (o, a, r, n, e, s) := v in Mnemonic32.i_vcmpunordsd_xxo (r 0) (r 1) (o 2))
     (fun v => let (o, a, r, n, e, s) := v in Mnemonic.i_vcmpunordsd_xxo (r 0) (r 1) (widen_op (o 2)));
   mkB "vcmpunordss_xxo" (fun v => let (o, a, r, n, e, s) := v in Mnemonic32.i_vcmpunordss_xxo (r 0) (r 1) (o 2))
     (fun v => let (o, a, r, n, e, s) := v in Mnemonic.i_vcmpunordss_xxo (r 0) (r 1) (widen_op (o 2)));
   mkB "vcomisd" (fun v => let (o, a, r, n, e, s) := v in Mnemonic32.i_vcomisd (r 0) (o 1))
     (fun v => let (o, a, r, n, e, s) := v in Mnemonic.i_vcomisd (r 0) (widen_op (o 1)));
   mkB "vcomiss" (fun v => let (o, a, r, n, e, s) := v in Mnemonic32.i_vcomiss (r 0) (o 1))
     (fun v => let (o, a, r, n, e, s) := v in Mnemonic.i_vcomiss (r 0) (widen_op (o 1)));
   mkB "vcvtdq2pd" (fun v => let (o, a, r, n, e, s) := v in Mnemonic32.i_vcvtdq2pd (r 0) (o 1))
     (fun v => let (o, a, r, n, e, s) := v in Mnemonic.i_vcvtdq2pd (r 0) (widen_op (o 1)));
   mkB "vcvtdq2ps" (fun v => let (o, a, r, n, e, s) := v in Mnemonic32.i_vcvtdq2ps (r 0) (o 1))
     (fun v => let (o, a, r, n, e, s) := v in Mnemonic.i_vcvtdq2ps (r 0) (widen_op (o 1)));
   mkB "vcvtneebf162ps" (fun v => let (o, a, r, n, e, s) := v in Mnemonic32.i_vcvtneebf162ps (r 0) (a 1))
     (fun v => let (o, a, r, n, e, s) := v in Mnemonic.i_vcvtneebf162ps (r 0) (widen_addr (a 1)));
   mkB "vcvtneeph2ps" (fun v => let (o, a, r, n, e, s) := v in Mnemonic32.i_vcvtneeph2ps (r 0) (a 1))
     (fun v => let (o, a, r, n, e, s) := v in Mnemonic.i_vcvtneeph2ps (r 0) (widen_addr (a 1)));
   mkB "vcvtneobf162ps" (fun v => let (o, a, r, n, e, s) := v in Mnemonic32.i_vcvtneobf162ps (r 0) (a 1))
     (fun v => let (o, a, r, n, e, s) := v in Mnemonic.i_vcvtneobf162ps (r 0) (widen_addr (a 1)));
   mkB "vcvtneoph2ps" (fun v => let (o, a, r, n, e, s) := v in Mnemonic32.i_vcvtneoph2ps (r 0) (a 1))
     (fun v => let (o, a, r, n, e, s) := v in Mnemonic.i_vcvtneoph2ps (r 0) (widen_addr (a 1)));
   mkB "vcvtneps2bf16" (fun v => let (o, a, r, n, e, s) := v in Mnemonic32.i_vcvtneps2bf16 (r 0) (o 1) e)
     (fun v => let (o, a, r, n, e, s) := v in Mnemonic.i_vcvtneps2bf16 (r 0) (widen_op (o 1)) e);
   mkB "vcvtpd2dq" (fun v => let (o, a, r, n, e, s) := v in Mnemonic32.i_vcvtpd2dq (r 0) (o 1))
     (fun v => let (o, a, r, n, e, s) := v in Mnemonic.i_vcvtpd2dq (r 0) (widen_op (o 1)));
   mkB "vcvtpd2ps" (fun v => let (o, a, r, n, e, s) := v in Mnemonic32.i_vcvtpd2ps (r 0) (o 1))
     (fun v => let (o, a, r, n, e, s) := v in Mnemonic.i_vcvtpd2ps (r 0) (widen_op (o 1)));
   mkB "vcvtph2ps" (fun v => let (o, a, r, n, e, s) := v in Mnemonic32.i_vcvtph2ps (r 0) (o 1))
     (fun v => let (o, a, r, n, e, s) := v in Mnemonic.i_vcvtph2ps (r 0) (widen_op (o 1)))].
Lemma sims35_ok : Forall same sims35.
Proof. unfold sims35.
row. { unfold Mnemonic32.i_vcmptrue_usss_xxo, Mnemonic32.i_vcmpss_xxoi, Mnemonic.i_vcmptrue_usss_xxo, Mnemonic.i_vcmpss_xxoi. row_sim. }
row. { unfold Mnemonic32.i_vcmptruepd_xxo, Mnemonic32.i_vcmppd_xxoi, Mnemonic.i_vcmptruepd_xxo, Mnemonic.i_vcmppd_xxoi. row_sim. }
row. { unfold Mnemonic32.i_vcmptrueps_xxo, Mnemonic32.i_vcmpps_xxoi, Mnemonic.i_vcmptrueps_xxo, Mnemonic.i_vcmpps_xxoi. row_sim. }
row. { unfold Mnemonic32.i_vcmptruesd_xxo, Mnemonic32.i_vcmpsd_xxoi, Mnemonic.i_vcmptruesd_xxo, Mnemonic.i_vcmpsd_xxoi. row_sim. }
row. { unfold Mnemonic32.i_vcmptruess_xxo, Mnemonic32.i_vcmpss_xxoi, Mnemonic.i_vcmptruess_xxo, Mnemonic.i_vcmpss_xxoi. row_sim. }
row. { unfold Mnemonic32.i_vcmpunord_spd_xxo, Mnemonic32.i_vcmppd_xxoi, Mnemonic.i_vcmpunord_spd_xxo, Mnemonic.i_vcmppd_xxoi. row_sim. }
row. { unfold Mnemonic32.i_vcmpunord_sps_xxo, Mnemonic32.i_vcmpps_xxoi, Mnemonic.i_vcmpunord_sps_xxo, Mnemonic.i_vcmpps_xxoi. row_sim. }
row. { unfold Mnemonic32.i_vcmpunord_ssd_xxo, Mnemonic32.i_vcmpsd_xxoi, Mnemonic.i_vcmpunord_ssd_xxo, Mnemonic.i_vcmpsd_xxoi. row_sim. }
row. { unfold Mnemonic32.i_vcmpunord_sss_xxo, Mnemonic32.i_vcmpss_xxoi, Mnemonic.i_vcmpunord_sss_xxo, Mnemonic.i_vcmpss_xxoi. row_sim. }
row. { unfold Mnemonic32.i_vcmpunordpd_xxo, Mnemonic32.i_vcmppd_xxoi, Mnemonic.i_vcmpunordpd_xxo, Mnemonic.i_vcmppd_xxoi. row_sim. }
row. { unfold Mnemonic32.i_vcmpunordps_xxo, Mnemonic32.i_vcmpps_xxoi, Mnemonic.i_vcmpunordps_xxo, Mnemonic.i_vcmpps_xxoi. row_sim. }
row. { unfold Mnemonic32.i_vcmpunordsd_xxo, Mnemonic32.i_vcmpsd_xxoi, Mnemonic.i_vcmpunordsd_xxo, Mnemonic.i_vcmpsd_xxoi. row_sim. }
row. { unfold Mnemonic32.i_vcmpunordss_xxo, Mnemonic32.i_vcmpss_xxoi, Mnemonic.i_vcmpunordss_xxo, Mnemonic.i_vcmpss_xxoi. row_sim. }
row. { unfold Mnemonic32.i_vcomisd, Mnemonic.i_vcomisd. row_sim. }
row. { unfold Mnemonic32.i_vcomiss, Mnemonic.i_vcomiss. row_sim. }
row. { unfold Mnemonic32.i_vcvtdq2pd, Mnemonic.i_vcvtdq2pd. row_sim. }
row. { unfold Mnemonic32.i_vcvtdq2ps, Mnemonic.i_vcvtdq2ps. row_sim. }
row. { unfold Mnemonic32.i_vcvtneebf162ps, Mnemonic.i_vcvtneebf162ps. row_sim. }
row. { unfold Mnemonic32.i_vcvtneeph2ps, Mnemonic.i_vcvtneeph2ps. row_sim. }
row. { unfold Mnemonic32.i_vcvtneobf162ps, Mnemonic.i_vcvtneobf162ps. row_sim. }
row. { unfold Mnemonic32.i_vcvtneoph2ps, Mnemonic.i_vcvtneoph2ps. row_sim. }
row. { unfold Mnemonic32.i_vcvtneps2bf16, Mnemonic.i_vcvtneps2bf16. row_sim. }
row. { unfold Mnemonic32.i_vcvtpd2dq, Mnemonic.i_vcvtpd2dq. row_sim. }
row. { unfold Mnemonic32.i_vcvtpd2ps, Mnemonic.i_vcvtpd2ps. row_sim. }
row. { unfold Mnemonic32.i_vcvtph2ps, Mnemonic.i_vcvtph2ps. row_sim. }
apply Forall_nil. Qed.
Definition sims36 : list b_entry :=
  [mkB "vcvtps2dq" (fun v => let (o, a, r, n, e, s) := v in Mnemonic32.i_vcvtps2dq (r 0) (o 1))
     (fun v => let (o, a, r, n, e, s) := v in Mnemonic.i_vcvtps2dq (r 0) (widen_op (o 1)));
   mkB "vcvtps2pd" (fun v => let (o, a, r, n, e, s) := v in Mnemonic32.i_vcvtps2pd (r 0) (o 1))
     (fun v => let (o, a, r, n, e, s) := v in Mnemonic.i_vcvtps2pd (r 0) (widen_op (o 1)));
   mkB "vcvtps2ph" (fun v => let (o, a, r, n, e, s) := v in Mnemonic32.i_vcvtps2ph (o 0) (r 1) (n 2))
     (fun v => let (o, a, r, n, e, s) := v in Mnemonic.i_vcvtps2ph (widen_op (o 0)) (r 1) (n 2));
   mkB "vcvtsd2si_do" (fun v => let (o, a, r, n, e, s) := v in Mnemonic32.i_vcvtsd2si_do (r 0) (o 1))
     (fun v => let (o, a, r, n, e, s) := v in Mnemonic.i_vcvtsd2si_do (r 0) (widen_op (o 1)));
   mkB "vcvtsd2ss_xxo" (fun v => let (o, a, r, n, e, s) := v in Mnemonic32.i_vcvtsd2ss_xxo (r 0) (r 1) (o 2))
     (fun v => let (o, a, r, n, e, s) := v in Mnemonic.i_vcvtsd2ss_xxo (r 0) (r 1) (widen_op (o 2)));
   mkB "vcvtsi2sd_xxo" (fun v => let (o, a, r, n, e, s) := v in Mnemonic32.i_vcvtsi2sd_xxo (r 0) (r 1) (o 2))
     (fun v => let (o, a, r, n, e, s) := v in Mnemonic.i_vcvtsi2sd_xxo (r 0) (r 1) (widen_op (o 2)));
   mkB "vcvtsi2ss_xxo" (fun v => let (o, a, r, n, e, s) := v in Mnemonic32.i_vcvtsi2ss_xxo (r 0) (r 1) (o 2))
     (fun v => let (o, a, r, n, e, s) := v in Mnemonic.i_vcvtsi2ss_xxo (r 0) (r 1) (widen_op (o 2)));
   mkB "vcvtss2sd_xxo" (fun v => let (o, a, r, n, e, s) := v in Mnemonic32.i_vcvtss2sd_xxo (r 0) (r 1) (o 2))
     (fun v => let (o, a, r, n, e, s) := v in Mnemonic.i_vcvtss2sd_xxo (r 0) (r 1) (widen_op (o 2)));
   mkB "vcvtss2si_do" (fun v => let (o, a, r, n, e, s) := v in Mnemonic32.i_vcvtss2si_do (r 0) (o 1))
     (fun v => let (o, a, r, n, e, s) := v in Mnemonic.i_vcvtss2si_do (r 0) (widen_op (o 1)));
   mkB "vcvttpd2dq" (fun v => let (o, a, r, n, e, s) := v in Mnemonic32.i_vcvttpd2dq (r 0) (o 1))
     (fun v => let (o, a, r, n, e, s) := v in Mnemonic.i_vcvttpd2dq (r 0) (widen_op (o 1)));
   mkB "vcvttps2dq" (fun v => let (o, a, r, n, e, s) := v in Mnemonic32.i_vcvttps2dq (r 0) (o 1))
     (fun v => let (o, a, r, n, e, s) := v in Mnemonic.i_vcvttps2dq (r 0) (widen_op (o 1)));
   mkB "vcvttsd2si_do" (fun v => let (o, a, r, n, e, s) := v in Mnemonic32.i_vcvttsd2si_do (r 0) (o 1))
     (fun v => let (o, a, r, n, e, s) := v in Mnemonic.i_vcvttsd2si_do (r 0) (widen_op (o 1)));
   mkB "vcvttss2si_do" (fun v => let (o, a, r, n, e, s) := v in Mnemonic32.i_vcvttss2si_do (r 0) (o 1))
     (fun v => let (o, a, r, n, e, s) := v in Mnemonic.i_vcvttss2si_do (r 0) (widen_op (o 1)));
   mkB "vdivpd" (fun v => let (o, a, r, n, e, s) := v in Mnemonic32.i_vdivpd (r 0) (o 1) (o 2))
     (fun v => let (o, a, r, n, e, s) := v in Mnemonic.i_vdivpd (r 0) (widen_op (o 1)) (widen_op (o 2)));
   mkB "vdivps" (fun v => let (o, a, r, n, e, s) := v in Mnemonic32.i_vdivps (r 0) (o 1) (o 2))
     (fun v => let (o, a, r, n, e, s) := v in Mnemonic.i_vdivps (r 0) (widen_op (o 1)) (widen_op (o 2)));
   mkB "vdivsd" (fun v => let (o, a, r, n, e, s) := v in Mnemonic32.i_vdivsd (r 0) (o 1) (o 2))
     (fun v => let (o, a, r, n, e, s) := v in Mnemonic.i_vdivsd (r 0) (widen_op (o 1)) (widen_op (o 2)));
   mkB "vdivss" (fun v => let (o, a, r, n, e, s) := v in Mnemonic32.i_vdivss (r 0) (o 1) (o 2))
     (fun v => let (o, a, r, n, e, s) := v in Mnemonic.i_vdivss (r 0) (widen_op (o 1)) (widen_op (o 2)));
   mkB "vdppd_xxoi" (fun v => let (o, a, r, n, e, s) := v in Mnemonic32.i_vdppd_xxoi (r 0) (r 1) (o 2) (n 3))
     (fun v => let (o, a, r, n, e, s) := v in Mnemonic.i_vdppd_xxoi (r 0) (r 1) (widen_op (o 2)) (n 3));
   mkB "vdpps_xxoi" (fun v => let (o, a, r, n, e, s) := v in Mnemonic32.i_vdpps_xxoi (r 0) (r 1) (o 2) (n 3))
     (fun v => let (o, a, r, n, e, s) := v in Mnemonic.i_vdpps_xxoi (r 0) (r 1) (widen_op (o 2)) (n 3));
   mkB "vextractf128" (fun v => let (o, a, r, n, e, s) := v in Mnemonic32.i_vextractf128 (o 0) (r 1) (n 2))
     (fun v => let (o, a, r, n, e, s) := v in Mnemonic.i_vextractf128 (widen_op (o 0)) (r 1) (n 2));
   mkB "vextracti128" (fun v => let (o, a, r, n, e, s) := v in Mnemonic32.i_vextracti128 (o 0) (r 1) (n 2))
     (fun v => let (o, a, r, n, e, s) := v in Mnemonic.i_vextracti128 (widen_op (o 0)) (r 1) (n 2));
   mkB "vextractps" (fun v => let (o, a, r, n, e, s) := v in Mnemonic32.i_vextractps (o 0) (r 1) (n 2))
     (fun v => let (o, a, r, n, e, s) := v in Mnemonic.i_vextractps (widen_op (o 0)) (r 1) (n 2));
   mkB "vfmadd132pd" (fun v => let (o, a, r, n, e, s) := v in Mnemonic32.i_vfmadd132pd (r 0) (r 1) (o 2))
     (fun v => let (o, a, r, n, e, s) := v in Mnemonic.i_vfmadd132pd (r 0) (r 1) (widen_op (o 2)));
   mkB "vfmadd132ps" (fun v => let (o, a, r, n, e, s) := v in Mnemonic32.i_vfmadd132ps (r 0) (r 1) (o 2))
     (fun v => let (o, a, r, n, e, s) := v in Mnemonic.i_vfmadd132ps (r 0) (r 1) (widen_op (o 2)));
   mkB "vfmadd132sd" (fun v => let (o, a, r, n, e, s) := v in Mnemonic32.i_vfmadd132sd (r 0) (r 1) (o 2))
     (fun v => let (o, a, r, n, e, s) := v in Mnemonic.i_vfmadd132sd (r 0) (r 1) (widen_op (o 2)))].
Lemma sims36_ok : Forall same sims36.
Proof. unfold sims36.
row. { unfold Mnemonic32.i_vcvtps2dq, Mnemonic.i_vcvtps2dq. row_sim. }
row. { unfold Mnemonic32.i_vcvtps2pd, Mnemonic.i_vcvtps2pd. row_sim. }
row. { unfold Mnemonic32.i_vcvtps2ph, Mnemonic.i_vcvtps2ph. row_sim. }
row. { unfold Mnemonic32.i_vcvtsd2si_do, Mnemonic.i_vcvtsd2si_do. row_sim. }
row. { unfold Mnemonic32.i_vcvtsd2ss_xxo, Mnemonic.i_vcvtsd2ss_xxo. row_sim. }
row. { unfold Mnemonic32.i_vcvtsi2sd_xxo, Mnemonic.i_vcvtsi2sd_xxo. row_sim. }
row. { unfold Mnemonic32.i_vcvtsi2ss_xxo, Mnemonic.i_vcvtsi2ss_xxo. row_sim. }
row. { unfold Mnemonic32.i_vcvtss2sd_xxo, Mnemonic.i_vcvtss2sd_xxo. row_sim. }
row. { unfold Mnemonic32.i_vcvtss2si_do, Mnemonic.i_vcvtss2si_do. row_sim. }
row. { unfold Mnemonic32.i_vcvttpd2dq, Mnemonic.i_vcvttpd2dq. row_sim. }
row. { unfold Mnemonic32.i_vcvttps2dq, Mnemonic.i_vcvttps2dq. row_sim. }
row. { unfold Mnemonic32.i_vcvttsd2si_do, Mnemonic.i_vcvttsd2si_do. row_sim. }
row. { unfold Mnemonic32.i_vcvttss2si_do, Mnemonic.i_vcvttss2si_do. row_sim. }
row. { unfold Mnemonic32.i_vdivpd, Mnemonic.i_vdivpd. row_sim. }
row. { unfold Mnemonic32.i_vdivps, Mnemonic.i_vdivps. row_sim. }
row. { unfold Mnemonic32.i_vdivsd, Mnemonic.i_vdivsd. row_sim. }
row. { unfold Mnemonic32.i_vdivss, Mnemonic.i_vdivss. row_sim. }
row. { unfold Mnemonic32.i_vdppd_xxoi, Mnemonic.i_vdppd_xxoi. row_sim. }
row. { unfold Mnemonic32.i_vdpps_xxoi, Mnemonic.i_vdpps_xxoi. row_sim. }
row. { unfold Mnemonic32.i_vextractf128, Mnemonic.i_vextractf128. row_sim. }
row. { unfold Mnemonic32.i_vextracti128, Mnemonic.i_vextracti128. row_sim. }
row. { unfold Mnemonic32.i_vextractps, Mnemonic.i_vextractps. row_sim. }
row. { unfold Mnemonic32.i_vfmadd132pd, Mnemonic.i_vfmadd132pd. row_sim. }
row. { unfold Mnemonic32.i_vfmadd132ps, Mnemonic.i_vfmadd132ps. row_sim. }
row. { unfold Mnemonic32.i_vfmadd132sd, Mnemonic.i_vfmadd132sd. row_sim. }
apply Forall_nil. Qed.
Definition sims37 : list b_entry :=
  [mkB "vfmadd132ss" (fun v => let (o, a, r, n, e, s) := v in Mnemonic32.i_vfmadd132ss (r 0) (r 1) (o 2))
     (fun v => let (o, a, r, n, e, s) := v in Mnemonic.i_vfmadd132ss (r 0) (r 1) (widen_op (o 2)));
   mkB "vfmadd213pd" (fun v => let (o, a, r, n, e, s) := v in Mnemonic32.i_vfmadd213pd (r 0) (r 1) (o 2))
     (fun v => let (o, a, r, n, e, s) := v in Mnemonic.i_vfmadd213pd (r 0) (r 1) (widen_op (o 2)));
   mkB "vfmadd213ps" (fun v => let (o, a, r, n, e, s) := v in Mnemonic32.i_vfmadd213ps (r 0) (r 1) (o 2))
     (fun v => let (o, a, r, n, e, s) := v in Mnemonic.i_vfmadd213ps (r 0) (r 1) (widen_op (o 2)));
   mkB "vfmadd213sd" (fun v => let (o, a, r, n, e, s) := v in Mnemonic32.i_vfmadd213sd (r 0) (r 1) (o 2))
     (fun v => let (o, a, r, n, e, s) := v in Mnemonic.i_vfmadd213sd (r 0) (r 1) (widen_op (o 2)));
   mkB "vfmadd213ss" (fun v => let (o, a, r, n, e, s) := v in Mnemonic32.i_vfmadd213ss (r 0) (r 1) (o 2))
     (fun v => let (o, a, r, n, e, s) := v in Mnemonic.i_vfmadd213ss (r 0) (r 1) (widen_op (o 2)));
   mkB "vfmadd231pd" (fun v => let (o, a, r, n, e, s) := v in Mnemonic32.i_vfmadd231pd (r 0) (r 1) (o 2))
     (fun v => let (o, a, r, n, e, s) := v in Mnemonic.i_vfmadd231pd (r 0) (r 1) (widen_op (o 2)));
   mkB "vfmadd231ps" (fun v => let (o, a, r, n, e, s) := v in Mnemonic32.i_vfmadd231ps (r 0) (r 1) (o 2))
     (fun v => let (o, a, r, n, e, s) := v in Mnemonic.i_vfmadd231ps (r 0) (r 1) (widen_op (o 2)));
   mkB "vfmadd231sd" (fun v => let (o, a, r, n, e, s) := v in Mnemonic32.i_vfmadd231sd (r 0) (r 1) (o 2))
     (fun v => let (o, a, r, n, e, s) := v in Mnemonic.i_vfmadd231sd (r 0) (r 1) (widen_op (o 2)));
   mkB "vfmadd231ss" (fun v => let (o, a, r, n, e, s) := v in Mnemonic32.i_vfmadd231ss (r 0) (r 1) (o 2))
     (fun v => let (o, a, r, n, e, s) := v in Mnemonic.i_vfmadd231ss (r 0) (r 1) (widen_op (o 2)));
   mkB "vfmaddsub132pd" (fun v => let (o, a, r, n, e, s) := v in Mnemonic32.i_vfmaddsub132pd (r 0) (r 1) (o 2))
     (fun v => let (o, a, r, n, e, s) := v in Mnemonic.i_vfmaddsub132pd (r 0) (r 1) (widen_op (o 2)));
   mkB "vfmaddsub132ps" (fun v => let (o, a, r, n, e, s) := v in Mnemonic32.i_vfmaddsub132ps (r 0) (r 1) (o 2))
     (fun v => let (o, a, r, n, e, s) := v in Mnemonic.i_vfmaddsub132ps (r 0) (r 1) (widen_op (o 2)));
   mkB "vfmaddsub213pd" (fun v => let (o, a, r, n, e, s) := v in Mnemonic32.i_vfmaddsub213pd (r 0) (r 1) (o 2))
     (fun v => let (o, a, r, n, e, s) := v in Mnemonic.i_vfmaddsub213pd (r 0) (r 1) (widen_op (o 2)));
   mkB "vfmaddsub213ps" (fun v => let (o, a, r, n, e, s) := v in Mnemonic32.i_vfmaddsub213ps (r 0) (r 1) (o 2))
     (fun v => let (o, a, r, n, e, s) := v in Mnemonic.i_vfmaddsub213ps (r 0) (r 1) (widen_op (o 2)));
   mkB "vfmaddsub231pd" (fun v => let (o, a, r, n, e, s) := v in Mnemonic32.i_vfmaddsub231pd (r 0) (r 1) (o 2))
     (fun v => let (o, a, r, n, e, s) := v in Mnemonic.i_vfmaddsub231pd (r 0) (r 1) (widen_op (o 2)));
   mkB "vfmaddsub231ps" (fun v => let (o, a, r, n, e, s) := v in Mnemonic32.i_vfmaddsub231ps (r 0) (r 1) (o 2))
     (fun v => let (o, a, r, n, e, s) := v in Mnemonic.i_vfmaddsub231ps (r 0) (r 1) (widen_op (o 2)));
   mkB "vfmsub132pd" (fun v => let (o, a, r, n, e, s) := v in Mnemonic32.i_vfmsub132pd (r 0) (r 1) (o 2))
     (fun v => let (o, a, r, n, e, s) := v in Mnemonic.i_vfmsub132pd (r 0) (r 1) (widen_op (o 2)));
   mkB "vfmsub132ps" (fun v => let (o, a, r, n, e, s) := v in Mnemonic32.i_vfmsub132ps (r 0) (r 1) (o 2))
     (fun v => let (o, a, r, n, e, s) := v in Mnemonic.i_vfmsub132ps (r 0) (r 1) (widen_op (o 2)));
   mkB "vfmsub132sd" (fun v => let (o, a, r, n, e, s) := v in Mnemonic32.i_vfmsub132sd (r 0) (r 1) (o 2))
     (fun v => let (o, a, r, n, e, s) := v in Mnemonic.i_vfmsub132sd (r 0) (r 1) (widen_op (o 2)));
   mkB "vfmsub132ss" (fun v => let (o, a, r, n, e, s) := v in Mnemonic32.i_vfmsub132ss (r 0) (r 1) (o 2))
     (fun v => let (o, a, r, n, e, s) := v in Mnemonic.i_vfmsub132ss (r 0) (r 1) (widen_op (o 2)));
   mkB "vfmsub213pd" (fun v => let (o, a, r, n, e, s) := v in Mnemonic32.i_vfmsub213pd (r 0) (r 1) (o 2))
     (fun v => let (o, a, r, n, e, s) := v in Mnemonic.i_vfmsub213pd (r 0) (r 1) (widen_op (o 2)));
   mkB "vfmsub213ps" (fun v => let (o, a, r, n, e, s) := v in Mnemonic32.i_vfmsub213ps (r 0) (r 1) (o 2))
     (fun v => let (o, a, r, n, e, s) := v in Mnemonic.i_vfmsub213ps (r 0) (r 1) (widen_op (o 2)));
   mkB "vfmsub213sd" (fun v => let (o, a, r, n, e, s) := v in Mnemonic32.i_vfmsub213sd (r 0) (r 1) (o 2))
     (fun v => let (o, a, r, n, e, s) := v in Mnemonic.i_vfmsub213sd (r 0) (r 1) (widen_op (o 2)));
   mkB "vfmsub213ss" (fun v => let (o, a, r, n, e, s) := v in Mnemonic32.i_vfmsub213ss (r 0) (r 1) (o 2))
     (fun v => let (o, a, r, n, e, s) := v in Mnemonic.i_vfmsub213ss (r 0) (r 1) (widen_op (o 2)));
   mkB "vfmsub231pd" (fun v => let (o, a, r, n, e, s) := v in Mnemonic32.i_vfmsub231pd (r 0) (r 1) (o 2))
     (fun v => let (o, a, r, n, e, s) := v in Mnemonic.i_vfmsub231pd (r 0) (r 1) (widen_op (o 2)));
   mkB "vfmsub231ps" (fun v => let (o, a, r, n, e, s) := v in Mnemonic32.i_vfmsub231ps (r 0) (r 1) (o 2))
     (fun v => let (o, a, r, n, e, s) := v in Mnemonic.i_vfmsub231ps (r 0) (r 1) (widen_op (o 2)))].
Lemma sims37_ok : Forall same sims37.
Proof. unfold sims37.
row. { unfold Mnemonic32.i_vfmadd132ss, Mnemonic.i_vfmadd132ss. row_sim. }
row. { unfold Mnemonic32.i_vfmadd213pd, Mnemonic.i_vfmadd213pd. row_sim. }
row. { unfold Mnemonic32.i_vfmadd213ps, Mnemonic.i_vfmadd213ps. row_sim. }
row. { unfold Mnemonic32.i_vfmadd213sd, Mnemonic.i_vfmadd213sd. row_sim. }
row. { unfold Mnemonic32.i_vfmadd213ss, Mnemonic.i_vfmadd213ss. row_sim. }
row. { unfold Mnemonic32.i_vfmadd231pd, Mnemonic.i_vfmadd231pd. row_sim. }
row. { unfold Mnemonic32.i_vfmadd231ps, Mnemonic.i_vfmadd231ps. row_sim. }
row. { unfold Mnemonic32.i_vfmadd231sd, Mnemonic.i_vfmadd231sd. row_sim. }
row. { unfold Mnemonic32.i_vfmadd231ss, Mnemonic.i_vfmadd231ss. row_sim. }
row. { unfold Mnemonic32.i_vfmaddsub132pd, Mnemonic.i_vfmaddsub132pd. row_sim. }
row. { unfold Mnemonic32.i_vfmaddsub132ps, Mnemonic.i_vfmaddsub132ps. row_sim. }
row. { unfold Mnemonic32.i_vfmaddsub213pd, Mnemonic.i_vfmaddsub213pd. row_sim. }
row. { unfold Mnemonic32.i_vfmaddsub213ps, Mnemonic.i_vfmaddsub213ps. row_sim. }
row. { unfold Mnemonic32.i_vfmaddsub231pd, Mnemonic.i_vfmaddsub231pd. row_sim. }
row. { unfold Mnemonic32.i_vfmaddsub231ps, Mnemonic.i_vfmaddsub231ps. row_sim. }
row. { unfold Mnemonic32.i_vfmsub132pd, Mnemonic.i_vfmsub132pd. row_sim. }
row. { unfold Mnemonic32.i_vfmsub132ps, Mnemonic.i_vfmsub132ps. row_sim. }
row. { unfold Mnemonic32.i_vfmsub132sd, Mnemonic.i_vfmsub132sd. row_sim. }
row. { unfold Mnemonic32.i_vfmsub132ss, Mnemonic.i_vfmsub132ss. row_sim. }
row. { unfold Mnemonic32.i_vfmsub213pd, Mnemonic.i_vfmsub213pd. row_sim. }
row. { unfold Mnemonic32.i_vfmsub213ps, Mnemonic.i_vfmsub213ps. row_sim. }
row. { unfold Mnemonic32.i_vfmsub213sd, Mnemonic.i_vfmsub213sd. row_sim. }
row. { unfold Mnemonic32.i_vfmsub213ss, Mnemonic.i_vfmsub213ss. row_sim. }
row. { unfold Mnemonic32.i_vfmsub231pd, Mnemonic.i_vfmsub231pd. row_sim. }
row. { unfold Mnemonic32.i_vfmsub231ps, Mnemonic.i_vfmsub231ps. row_sim. }
apply Forall_nil. Qed.
Definition sims38 : list b_entry :=
  [mkB "vfmsub231sd" (fun v => let (o, a, r, n, e, s) := v in Mnemonic32.i_vfmsub231sd (r 0) (r 1) (o 2))
     (fun v => let (o, a, r, n, e, s) := v in Mnemonic.i_vfmsub231sd (r 0) (r 1) (widen_op (o 2)));
   mkB "vfmsub231ss" (fun v => let (o, a, r, n, e, s) := v in Mnemonic32.i_vfmsub231ss (r 0) (r 1) (o 2))
     (fun v => let (o, a, r, n, e, s) := v in Mnemonic.i_vfmsub231ss (r 0) (r 1) (widen_op (o 2)));
   mkB "vfmsubadd132pd" (fun v => let (o, a, r, n, e, s) := v in Mnemonic32.i_vfmsubadd132pd (r 0) (r 1) (o 2))
     (fun v => let (o, a, r, n, e, s) := v in Mnemonic.i_vfmsubadd132pd (r 0) (r 1) (widen_op (o 2)));
   mkB "vfmsubadd132ps" (fun v => let (o, a, r, n, e, s) := v in Mnemonic32.i_vfmsubadd132ps (r 0) (r 1) (o 2))
     (fun v => let (o, a, r, n, e, s) := v in Mnemonic.i_vfmsubadd132ps (r 0) (r 1) (widen_op (o 2)));
   mkB "vfmsubadd213pd" (fun v => let (o, a, r, n, e, s) := v in Mnemonic32.i_vfmsubadd213pd (r 0) (r 1) (o 2))
     (fun v => let (o, a, r, n, e, s) := v in Mnemonic.i_vfmsubadd213pd (r 0) (r 1) (widen_op (o 2)));
   mkB "vfmsubadd213ps" (fun v => let (o, a, r, n, e, s) := v in Mnemonic32.i_vfmsubadd213ps (r 0) (r 1) (o 2))
     (fun v => let (o, a, r, n, e, s) := v in Mnemonic.i_vfmsubadd213ps (r 0) (r 1) (widen_op (o 2)));
   mkB "vfmsubadd231pd" (fun v => let (o, a, r, n, e, s) := v in Mnemonic32.i_vfmsubadd231pd (r 0) (r 1) (o 2))
     (fun v => let (o, a, r, n, e, s) := v in Mnemonic.i_vfmsubadd231pd (r 0) (r 1) (widen_op (o 2)));
   mkB "vfmsubadd231ps" (fun v => let (o, a, r, n, e, s) := v in Mnemonic32.i_vfmsubadd231ps (r 0) (r 1) (o 2))
     (fun v => let (o, a, r, n, e, s) := v in Mnemonic.i_vfmsubadd231ps (r 0) (r 1) (widen_op (o 2)));
   mkB "vfnmadd132pd" (fun v => let (o, a, r, n, e, s) := v in Mnemonic32.i_vfnmadd132pd (r 0) (r 1) (o 2))
     (fun v => let (o, a, r, n, e, s) := v in Mnemonic.i_vfnmadd132pd (r 0) (r 1) (widen_op (o 2)));
   mkB "vfnmadd132ps" (fun v => let (o, a, r, n, e, s) := v in Mnemonic32.i_vfnmadd132ps (r 0) (r 1) (o 2))
     (fun v => let (o, a, r, n, e, s) := v in Mnemonic.i_vfnmadd132ps (r 0) (r 1) (widen_op (o 2)));
   mkB "vfnmadd132sd" (fun v => let (o, a, r, n, e, s) := v in Mnemonic32.i_vfnmadd132sd (r 0) (r 1) (o 2))
     (fun v => let (o, a, r, n, e, s) := v in Mnemonic.i_vfnmadd132sd (r 0) (r 1) (widen_op (o 2)));
   mkB "vfnmadd132ss" (fun v => let (o, a, r, n, e, s) := v in Mnemonic32.i_vfnmadd132ss (r 0) (r 1) (o 2))
     (fun v => let (o, a, r, n, e, s) := v in Mnemonic.i_vfnmadd132ss (r 0) (r 1) (widen_op (o 2)));
   mkB "vfnmadd213pd" (fun v => let (o, a, r, n, e, s) := v in Mnemonic32.i_vfnmadd213pd (r 0) (r 1) (o 2))
     (fun v => let (o, a, r, n, e, s) := v in Mnemonic.i_vfnmadd213pd (r 0) (r 1) (widen_op (o 2)));
   mkB "vfnmadd213ps" (fun v => let (o, a, r, n, e, s) := v in Mnemonic32.i_vfnmadd213ps (r 0) (r 1) (o 2))
     (fun v => let (o, a, r, n, e, s) := v in Mnemonic.i_vfnmadd213ps (r 0) (r 1) (widen_op (o 2)));
   mkB "vfnmadd213sd" (fun v => let (o, a, r, n, e, s) := v in Mnemonic32.i_vfnmadd213sd (r 0) (r 1) (o 2))
     (fun v => let (o, a, r, n, e, s) := v in Mnemonic.i_vfnmadd213sd (r 0) (r 1) (widen_op (o 2)));
   mkB "vfnmadd213ss" (fun v => let (o, a, r, n, e, s) := v in Mnemonic32.i_vfnmadd213ss (r 0) (r 1) (o 2))
     (fun v => let (o, a, r, n, e, s) := v in Mnemonic.i_vfnmadd213ss (r 0) (r 1) (widen_op (o 2)));
   mkB "vfnmadd231pd" (fun v => let (o, a, r, n, e, s) := v in Mnemonic32.i_vfnmadd231pd (r 0) (r 1) (o 2))
     (fun v => let (o, a, r, n, e, s) := v in Mnemonic.i_vfnmadd231pd (r 0) (r 1) (widen_op (o 2)));
   mkB "vfnmadd231ps" (fun v => let (o, a, r, n, e, s) := v in Mnemonic32.i_vfnmadd231ps (r 0) (r 1) (o 2))
     (fun v => let (o, a, r, n, e, s) := v in Mnemonic.i_vfnmadd231ps (r 0) (r 1) (widen_op (o 2)));
   mkB "vfnmadd231sd" (fun v => let (o, a, r, n, e, s) := v in Mnemonic32.i_vfnmadd231sd (r 0) (r 1) (o 2))
     (fun v => let (o, a, r, n, e, s) := v in Mnemonic.i_vfnmadd231sd (r 0) (r 1) (widen_op (o 2)));
   mkB "vfnmadd231ss" (fun v => let (o, a, r, n, e, s) := v in Mnemonic32.i_vfnmadd231ss (r 0) (r 1) (o 2))
     (fun v => let (o, a, r, n, e, s) := v in Mnemonic.i_vfnmadd231ss (r 0) (r 1) (widen_op (o 2)));
   mkB "vfnmsub132pd" (fun v => let (o, a, r, n, e, s) := v in Mnemonic32.i_vfnmsub132pd (r 0) (r 1) (o 2))
     (fun v => let (o, a, r, n, e, s) := v in Mnemonic.i_vfnmsub132pd (r 0) (r 1) (widen_op (o 2)));
   mkB "vfnmsub132ps" (fun v => let (o, a, r, n, e, s) := v in Mnemonic32.i_vfnmsub132ps (r 0) (r 1) (o 2))
     (fun v => let (o, a, r, n, e, s) := v in Mnemonic.i_vfnmsub132ps (r 0) (r 1) (widen_op (o 2)));
   mkB "vfnmsub132sd" (fun v => let (o, a, r, n, e, s) := v in Mnemonic32.i_vfnmsub132sd (r 0) (r 1) (o 2))
     (fun v => let (o, a, r, n, e, s) := v in Mnemonic.i_vfnmsub132sd (r 0) (r 1) (widen_op (o 2)));
   mkB "vfnmsub132ss" (fun v => let (o, a, r, n, e, s) := v in Mnemonic32.i_vfnmsub132ss (r 0) (r 1) (o 2))
     (fun v => let (o, a, r, n, e, s) := v in Mnemonic.i_vfnmsub132ss (r 0) (r 1) (widen_op (o 2)));
   mkB "vfnmsub213pd" (fun v => let (o, a, r, n, e, s) := v in Mnemonic32.i_vfnmsub213pd (r 0) (r 1) (o 2))
     (fun v => let (o, a, r, n, e, s) := v in Mnemonic.i_vfnmsub213pd (r 0) (r 1) (widen_op (o 2)))].
Lemma sims38_ok : Forall same sims38.
Proof. unfold sims38.
row. { unfold Mnemonic32.i_vfmsub231sd, Mnemonic.i_vfmsub231sd. row_sim. }
row. { unfold Mnemonic32.i_vfmsub231ss, Mnemonic.i_vfmsub231ss. row_sim. }
row. { unfold Mnemonic32.i_vfmsubadd132pd, Mnemonic.i_vfmsubadd132pd. row_sim. }
row. { unfold Mnemonic32.i_vfmsubadd132ps, Mnemonic.i_vfmsubadd132ps. row_sim. }
row. { unfold Mnemonic32.i_vfmsubadd213pd, Mnemonic.i_vfmsubadd213pd. row_sim. }
row. { unfold Mnemonic32.i_vfmsubadd213ps, Mnemonic.i_vfmsubadd213ps. row_sim. }
row. { unfold Mnemonic32.i_vfmsubadd231pd, Mnemonic.i_vfmsubadd231pd. row_sim. }
row. { unfold Mnemonic32.i_vfmsubadd231ps, Mnemonic.i_vfmsubadd231ps. row_sim. }
row. { unfold Mnemonic32.i_vfnmadd132pd, Mnemonic.i_vfnmadd132pd. row_sim. }
row. { unfold Mnemonic32.i_vfnmadd132ps, Mnemonic.i_vfnmadd132ps. row_sim. }
row. { unfold Mnemonic32.i_vfnmadd132sd, Mnemonic.i_vfnmadd132sd. row_sim. }
row. { unfold Mnemonic32.i_vfnmadd132ss, Mnemonic.i_vfnmadd132ss. row_sim. }
row. { unfold Mnemonic32.i_vfnmadd213pd, Mnemonic.i_vfnmadd213pd. row_sim. }
row. { unfold Mnemonic32.i_vfnmadd213ps, Mnemonic.i_vfnmadd213ps. row_sim. }
row. { unfold Mnemonic32.i_vfnmadd213sd, Mnemonic.i_vfnmadd213sd. row_sim. }
row. { unfold Mnemonic32.i_vfnmadd213ss, Mnemonic.i_vfnmadd213ss. row_sim. }
row. { unfold Mnemonic32.i_vfnmadd231pd, Mnemonic.i_vfnmadd231pd. row_sim. }
row. { unfold Mnemonic32.i_vfnmadd231ps, Mnemonic.i_vfnmadd231ps. row_sim. }
row. { unfold Mnemonic32.i_vfnmadd231sd, Mnemonic.i_vfnmadd231sd. row_sim. }
row. { unfold Mnemonic32.i_vfnmadd231ss, Mnemonic.i_vfnmadd231ss. row_sim. }
row. { unfold Mnemonic32.i_vfnmsub132pd, Mnemonic.i_vfnmsub132pd. row_sim. }
row. { unfold Mnemonic32.i_vfnmsub132ps, Mnemonic.i_vfnmsub132ps. row_sim. }
row. { unfold Mnemonic32.i_vfnmsub132sd, Mnemonic.i_vfnmsub132sd. row_sim. }
row. { unfold Mnemonic32.i_vfnmsub132ss, Mnemonic.i_vfnmsub132ss. row_sim. }
row. { unfold Mnemonic32.i_vfnmsub213pd, Mnemonic.i_vfnmsub213pd. row_sim. }
apply Forall_nil. Qed.
Definition sims39 : list b_entry :=
  [mkB "vfnmsub213ps" (fun v => let (o, a, r, n, e, s) := v in Mnemonic32.i_vfnmsub213ps (r 0) (r 1) (o 2))
     (fun v => let (o, a, r, n, e, s) := v in Mnemonic.i_vfnmsub213ps (r 0) (r 1) (widen_op (o 2)));
   mkB "vfnmsub213sd" (fun v => let (o, a, r, n, e, s) := v in Mnemonic32.i_vfnmsub213sd (r 0) (r 1) (o 2))
     (fun v => let (o, a, r, n, e, s) := v in Mnemonic.i_vfnmsub213sd (r 0) (r 1) (widen_op (o 2)));
   mkB "vfnmsub213ss" (fun v => let (o, a, r, n, e, s) := v in Mnemonic32.i_vfnmsub213ss (r 0) (r 1) (o 2))
     (fun v => let (o, a, r, n, e, s) := v in Mnemonic.i_vfnmsub213ss (r 0) (r 1) (widen_op (o 2)));
   mkB "vfnmsub231pd" (fun v => let (o, a, r, n, e, s) := v in Mnemonic32.i_vfnmsub231pd (r 0) (r 1) (o 2))
     (fun v => let (o, a, r, n, e, s) := v in Mnemonic.i_vfnmsub231pd (r 0) (r 1) (widen_op (o 2)));
   mkB "vfnmsub231ps" (fun v => let (o, a, r, n, e, s) := v in Mnemonic32.i_vfnmsub231ps (r 0) (r 1) (o 2))
     (fun v => let (o, a, r, n, e, s) := v in Mnemonic.i_vfnmsub231ps (r 0) (r 1) (widen_op (o 2)));
   mkB "vfnmsub231sd" (fun v => let (o, a, r, n, e, s) := v in Mnemonic32.i_vfnmsub231sd (r 0) (r 1) (o 2))
     (fun v => let (o, a, r, n, e, s) := v in Mnemonic.i_vfnmsub231sd (r 0) (r 1) (widen_op (o 2)));
   mkB "vfnmsub231ss" (fun v => let (o, a, r, n, e, s) := v in Mnemonic32.i_vfnmsub231ss (r 0) (r 1) (o 2))
     (fun v => let (o, a, r, n, e, s) := v in Mnemonic.i_vfnmsub231ss (r 0) (r 1) (widen_op (o 2)));
   mkB "vgatherdpd_xax" (fun v => let (o, a, r, n, e, s) := v in Mnemonic32.i_vgatherdpd_xax (r 0) (a 1) (r 2))
     (fun v => let (o, a, r, n, e, s) := v in Mnemonic.i_vgatherdpd_xax (r 0) (widen_addr (a 1)) (r 2));
   mkB "vgatherdps_xax" (fun v => let (o, a, r, n, e, s) := v in Mnemonic32.i_vgatherdps_xax (r 0) (a 1) (r 2))
     (fun v => let (o, a, r, n, e, s) := v in Mnemonic.i_vgatherdps_xax (r 0) (widen_addr (a 1)) (r 2));
   mkB "vgatherqpd_xax" (fun v => let (o, a, r, n, e, s) := v in Mnemonic32.i_vgatherqpd_xax (r 0) (a 1) (r 2))
     (fun v => let (o, a, r, n, e, s) := v in Mnemonic.i_vgatherqpd_xax (r 0) (widen_addr (a 1)) (r 2));
   mkB "vgatherqps_xax" (fun v => let (o, a, r, n, e, s) := v in Mnemonic32.i_vgatherqps_xax (r 0) (a 1) (r 2))
     (fun v => let (o, a, r, n, e, s) := v in Mnemonic.i_vgatherqps_xax (r 0) (widen_addr (a 1)) (r 2));
   mkB "vgf2p8affineinvqb" (fun v => let (o, a, r, n, e, s) := v in Mnemonic32.i_vgf2p8affineinvqb (r 0) (r 1) (o 2) (n 3))
     (fun v => let (o, a, r, n, e, s) := v in Mnemonic.i_vgf2p8affineinvqb (r 0) (r 1) (widen_op (o 2)) (n 3));
   mkB "vgf2p8affineqb" (fun v => let (o, a, r, n, e, s) := v in Mnemonic32.i_vgf2p8affineqb (r 0) (r 1) (o 2) (n 3))
     (fun v => let (o, a, r, n, e, s) := v in Mnemonic.i_vgf2p8affineqb (r 0) (r 1) (widen_op (o 2)) (n 3));
   mkB "vgf2p8mulb" (fun v => let (o, a, r, n, e, s) := v in Mnemonic32.i_vgf2p8mulb (r 0) (r 1) (o 2))
     (fun v => let (o, a, r, n, e, s) := v in Mnemonic.i_vgf2p8mulb (r 0) (r 1) (widen_op (o 2)));
   mkB "vhaddpd" (fun v => let (o, a, r, n, e, s) := v in Mnemonic32.i_vhaddpd (r 0) (o 1) (o 2))
     (fun v => let (o, a, r, n, e, s) := v in Mnemonic.i_vhaddpd (r 0) (widen_op (o 1)) (widen_op (o 2)));
   mkB "vhaddps" (fun v => let (o, a, r, n, e, s) := v in Mnemonic32.i_vhaddps (r 0) (o 1) (o 2))
     (fun v => let (o, a, r, n, e, s) := v in Mnemonic.i_vhaddps (r 0) (widen_op (o 1)) (widen_op (o 2)));
   mkB "vhsubpd" (fun v => let (o, a, r, n, e, s) := v in Mnemonic32.i_vhsubpd (r 0) (o 1) (o 2))
     (fun v => let (o, a, r, n, e, s) := v in Mnemonic.i_vhsubpd (r 0) (widen_op (o 1)) (widen_op (o 2)));
   mkB "vhsubps" (fun v => let (o, a, r, n, e, s) := v in Mnemonic32.i_vhsubps (r 0) (o 1) (o 2))
     (fun v => let (o, a, r, n, e, s) := v in Mnemonic.i_vhsubps (r 0) (widen_op (o 1)) (widen_op (o 2)));
   mkB "vinsertf128" (fun v => let (o, a, r, n, e, s) := v in Mnemonic32.i_vinsertf128 (r 0) (r 1) (o 2) (n 3))
     (fun v => let (o, a, r, n, e, s) := v in Mnemonic.i_vinsertf128 (r 0) (r 1) (widen_op (o 2)) (n 3));
   mkB "vinserti128" (fun v => let (o, a, r, n, e, s) := v in Mnemonic32.i_vinserti128 (r 0) (r 1) (o 2) (n 3))
     (fun v => let (o, a, r, n, e, s) := v in Mnemonic.i_vinserti128 (r 0) (r 1) (widen_op (o 2)) (n 3));
   mkB "vinsertps_xxoi" (fun v => let (o, a, r, n, e, s) := v in Mnemonic32.i_vinsertps_xxoi (r 0) (r 1) (o 2) (n 3))
     (fun v => let (o, a, r, n, e, s) := v in Mnemonic.i_vinsertps_xxoi (r 0) (r 1) (widen_op (o 2)) (n 3));
   mkB "vlddqu" (fun v => let (o, a, r, n, e, s) := v in Mnemonic32.i_vlddqu (r 0) (a 1))
     (fun v => let (o, a, r, n, e, s) := v in Mnemonic.i_vlddqu (r 0) (widen_addr (a 1)));
   mkB "vldmxcsr" (fun v => let (o, a, r, n, e, s) := v in Mnemonic32.i_vldmxcsr (a 0))
     (fun v => let (o, a, r, n, e, s) := v in Mnemonic.i_vldmxcsr (widen_addr (a 0)));
   mkB "vmaskmovdqu" (fun v => let (o, a, r, n, e, s) := v in Mnemonic32.i_vmaskmovdqu (r 0) (r 1))
     (fun v => let (o, a, r, n, e, s) := v in Mnemonic.i_vmaskmovdqu (r 0) (r 1));
   mkB "vmaskmovpd_axx" (fun v => let (o, a, r, n, e, s) := v in Mnemonic32.i_vmaskmovpd_axx (a 0) (r 1) (r 2))
     (fun v => let (o, a, r, n, e, s) := v in Mnemonic.i_vmaskmovpd_axx (widen_addr (a 0)) (r 1) (r 2))].
Lemma sims39_ok : Forall same sims39.
Proof. unfold sims39.
row. { unfold Mnemonic32.i_vfnmsub213ps, Mnemonic.i_vfnmsub213ps. row_sim. }
row. { unfold Mnemonic32.i_vfnmsub213sd, Mnemonic.i_vfnmsub213sd. row_sim. }
row. { unfold Mnemonic32.i_vfnmsub213ss, Mnemonic.i_vfnmsub213ss. row_sim. }
row. { unfold Mnemonic32.i_vfnmsub231pd, Mnemonic.i_vfnmsub231pd. row_sim. }
row. { unfold Mnemonic32.i_vfnmsub231ps, Mnemonic.i_vfnmsub231ps. row_sim. }
row. { unfold Mnemonic32.i_vfnmsub231sd, Mnemonic.i_vfnmsub231sd. row_sim. }
row. { unfold Mnemonic32.i_vfnmsub231ss, Mnemonic.i_vfnmsub231ss. row_sim. }
row. { unfold Mnemonic32.i_vgatherdpd_xax, Mnemonic.i_vgatherdpd_xax. row_sim. }
row. { unfold Mnemonic32.i_vgatherdps_xax, Mnemonic.i_vgatherdps_xax. row_sim. }
row. { unfold Mnemonic32.i_vgatherqpd_xax, Mnemonic.i_vgatherqpd_xax. row_sim. }
row. { unfold Mnemonic32.i_vgatherqps_xax, Mnemonic.i_vgatherqps_xax. row_sim. }
row. { unfold Mnemonic32.i_vgf2p8affineinvqb, Mnemonic.i_vgf2p8affineinvqb. row_sim. }
row. { unfold Mnemonic32.i_vgf2p8affineqb, Mnemonic.i_vgf2p8affineqb. row_sim. }
row. { unfold Mnemonic32.i_vgf2p8mulb, Mnemonic.i_vgf2p8mulb. row_sim. }
row. { unfold Mnemonic32.i_vhaddpd, Mnemonic.i_vhaddpd. row_sim. }
row. { unfold Mnemonic32.i_vhaddps, Mnemonic.i_vhaddps. row_sim. }
row. { unfold Mnemonic32.i_vhsubpd, Mnemonic.i_vhsubpd. row_sim. }
row. { unfold Mnemonic32.i_vhsubps, Mnemonic.i_vhsubps. row_sim. }
row. { unfold Mnemonic32.i_vinsertf128, Mnemonic.i_vinsertf128. row_sim. }
row. { unfold Mnemonic32.i_vinserti128, Mnemonic.i_vinserti128. row_sim. }
row. { unfold Mnemonic32.i_vinsertps_xxoi, Mnemonic.i_vinsertps_xxoi. row_sim. }
row. { unfold Mnemonic32.i_vlddqu, Mnemonic.i_vlddqu. row_sim. }
row. { unfold Mnemonic32.i_vldmxcsr, Mnemonic.i_vldmxcsr. row_sim. }
row. { unfold Mnemonic32.i_vmaskmovdqu, Mnemonic.i_vmaskmovdqu. row_sim. }
row. { unfold Mnemonic32.i_vmaskmovpd_axx, Mnemonic.i_vmaskmovpd_axx. row_sim. }
apply Forall_nil. Qed.
Definition sims40 : list b_entry :=
  [mkB "vmaskmovpd_xxa" (fun v => let (o, a, r, n, e, s) := v in Mnemonic32.i_vmaskmovpd_xxa (r 0) (r 1) (a 2))
     (fun v => let (o, a, r, n, e, s) := v in Mnemonic.i_vmaskmovpd_xxa (r 0) (r 1) (widen_addr (a 2)));
   mkB "vmaskmovps_axx" (fun v => let (o, a, r, n, e, s) := v in Mnemonic32.i_vmaskmovps_axx (a 0) (r 1) (r 2))
     (fun v => let (o, a, r, n, e, s) := v in Mnemonic.i_vmaskmovps_axx (widen_addr (a 0)) (r 1) (r 2));
   mkB "vmaskmovps_xxa" (fun v => let (o, a, r, n, e, s) := v in Mnemonic32.i_vmaskmovps_xxa (r 0) (r 1) (a 2))
     (fun v => let (o, a, r, n, e, s) := v in Mnemonic.i_vmaskmovps_xxa (r 0) (r 1) (widen_addr (a 2)));
   mkB "vmaxpd" (fun v => let (o, a, r, n, e, s) := v in Mnemonic32.i_vmaxpd (r 0) (o 1) (o 2))
     (fun v => let (o, a, r, n, e, s) := v in Mnemonic.i_vmaxpd (r 0) (widen_op (o 1)) (widen_op (o 2)));
   mkB "vmaxps" (fun v => let (o, a, r, n, e, s) := v in Mnemonic32.i_vmaxps (r 0) (o 1) (o 2))
     (fun v => let (o, a, r, n, e, s) := v in Mnemonic.i_vmaxps (r 0) (widen_op (o 1)) (widen_op (o 2)));
   mkB "vmaxsd" (fun v => let (o, a, r, n, e, s) := v in Mnemonic32.i_vmaxsd (r 0) (o 1) (o 2))
     (fun v => let (o, a, r, n, e, s) := v in Mnemonic.i_vmaxsd (r 0) (widen_op (o 1)) (widen_op (o 2)));
   mkB "vmaxss" (fun v => let (o, a, r, n, e, s) := v in Mnemonic32.i_vmaxss (r 0) (o 1) (o 2))
     (fun v => let (o, a, r, n, e, s) := v in Mnemonic.i_vmaxss (r 0) (widen_op (o 1)) (widen_op (o 2)));
   mkB "vminpd" (fun v => let (o, a, r, n, e, s) := v in Mnemonic32.i_vminpd (r 0) (o 1) (o 2))
     (fun v => let (o, a, r, n, e, s) := v in Mnemonic.i_vminpd (r 0) (widen_op (o 1)) (widen_op (o 2)));
   mkB "vminps" (fun v => let (o, a, r, n, e, s) := v in Mnemonic32.i_vminps (r 0) (o 1) (o 2))
     (fun v => let (o, a, r, n, e, s) := v in Mnemonic.i_vminps (r 0) (widen_op (o 1)) (widen_op (o 2)));
   mkB "vminsd" (fun v => let (o, a, r, n, e, s) := v in Mnemonic32.i_vminsd (r 0) (o 1) (o 2))
     (fun v => let (o, a, r, n, e, s) := v in Mnemonic.i_vminsd (r 0) (widen_op (o 1)) (widen_op (o 2)));
   mkB "vminss" (fun v => let (o, a, r, n, e, s) := v in Mnemonic32.i_vminss (r 0) (o 1) (o 2))
     (fun v => let (o, a, r, n, e, s) := v in Mnemonic.i_vminss (r 0) (widen_op (o 1)) (widen_op (o 2)));
   mkB "vmovapd_ax" (fun v => let (o, a, r, n, e, s) := v in Mnemonic32.i_vmovapd_ax (a 0) (r 1))
     (fun v => let (o, a, r, n, e, s) := v in Mnemonic.i_vmovapd_ax (widen_addr (a 0)) (r 1));
   mkB "vmovapd_xo" (fun v => let (o, a, r, n, e, s) := v in Mnemonic32.i_vmovapd_xo (r 0) (o 1))
     (fun v => let (o, a, r, n, e, s) := v in Mnemonic.i_vmovapd_xo (r 0) (widen_op (o 1)));
   mkB "vmovaps_ax" (fun v => let (o, a, r, n, e, s) := v in Mnemonic32.i_vmovaps_ax (a 0) (r 1))
     (fun v => let (o, a, r, n, e, s) := v in Mnemonic.i_vmovaps_ax (widen_addr (a 0)) (r 1));
   mkB "vmovaps_xo" (fun v => let (o, a, r, n, e, s) := v in Mnemonic32.i_vmovaps_xo (r 0) (o 1))
     (fun v => let (o, a, r, n, e, s) := v in Mnemonic.i_vmovaps_xo (r 0) (widen_op (o 1)));
   mkB "vmovddup" (fun v => let (o, a, r, n, e, s) := v in Mnemonic32.i_vmovddup (r 0) (o 1))
     (fun v => let (o, a, r, n, e, s) := v in Mnemonic.i_vmovddup (r 0) (widen_op (o 1)));
   mkB "vmovdqa_ax" (fun v => let (o, a, r, n, e, s) := v in Mnemonic32.i_vmovdqa_ax (a 0) (r 1))
     (fun v => let (o, a, r, n, e, s) := v in Mnemonic.i_vmovdqa_ax (widen_addr (a 0)) (r 1));
   mkB "vmovdqa_xo" (fun v => let (o, a, r, n, e, s) := v in Mnemonic32.i_vmovdqa_xo (r 0) (o 1))
     (fun v => let (o, a, r, n, e, s) := v in Mnemonic.i_vmovdqa_xo (r 0) (widen_op (o 1)));
   mkB "vmovdqu_ax" (fun v => let (o, a, r, n, e, s) := v in Mnemonic32.i_vmovdqu_ax (a 0) (r 1))
     (fun v => let (o, a, r, n, e, s) := v in Mnemonic.i_vmovdqu_ax (widen_addr (a 0)) (r 1));
   mkB "vmovdqu_xo" (fun v => let (o, a, r, n, e, s) := v in Mnemonic32.i_vmovdqu_xo (r 0) (o 1))
     (fun v => let (o, a, r, n, e, s) := v in Mnemonic.i_vmovdqu_xo (r 0) (widen_op (o 1)));
   mkB "vmovhlps" (fun v => let (o, a, r, n, e, s) := v in Mnemonic32.i_vmovhlps (r 0) (r 1) (o 2))
     (fun v => let (o, a, r, n, e, s) := v in Mnemonic.i_vmovhlps (r 0) (r 1) (widen_op (o 2)));
   mkB "vmovhpd_ax" (fun v => let (o, a, r, n, e, s) := v in Mnemonic32.i_vmovhpd_ax (a 0) (r 1))
     (fun v => let (o, a, r, n, e, s) := v in Mnemonic.i_vmovhpd_ax (widen_addr (a 0)) (r 1));
   mkB "vmovhpd_xoo" (fun v => let (o, a, r, n, e, s) := v in Mnemonic32.i_vmovhpd_xoo (r 0) (o 1) (o 2))
     (fun v => let (o, a, r, n, e, s) := v in Mnemonic.i_vmovhpd_xoo (r 0) (widen_op (o 1)) (widen_op (o 2)));
   mkB "vmovhps_ax" (fun v => let (o, a, r, n, e, s) := v in Mnemonic32.i_vmovhps_ax (a 0) (r 1))
     (fun v => let (o, a, r, n, e, s) := v in Mnemonic.i_vmovhps_ax (widen_addr (a 0)) (r 1));
   mkB "vmovhps_xoo" (fun v => let (o, a, r, n, e, s) := v in Mnemonic32.i_vmovhps_xoo (r 0) (o 1) (o 2))
     (fun v => let (o, a, r, n, e, s) := v in Mnemonic.i_vmovhps_xoo (r 0) (widen_op (o 1)) (widen_op (o 2)))].
Lemma sims40_ok : Forall same sims40.
Proof. unfold sims40.
row. { unfold Mnemonic32.i_vmaskmovpd_xxa, Mnemonic.i_vmaskmovpd_xxa. row_sim. }
row. { unfold Mnemonic32.i_vmaskmovps_axx, Mnemonic.i_vmaskmovps_axx. row_sim. }
row. { unfold Mnemonic32.i_vmaskmovps_xxa, Mnemonic.i_vmaskmovps_xxa. row_sim. }
row. { unfold Mnemonic32.i_vmaxpd, Mnemonic.i_vmaxpd. row_sim. }
row. { unfold Mnemonic32.i_vmaxps, Mnemonic.i_vmaxps. row_sim. }
row. { unfold Mnemonic32.i_vmaxsd, Mnemonic.i_vmaxsd. row_sim. }
row. { unfold Mnemonic32.i_vmaxss, Mnemonic.i_vmaxss. row_sim. }
row. { unfold Mnemonic32.i_vminpd, Mnemonic.i_vminpd. row_sim. }
row. { unfold Mnemonic32.i_vminps, Mnemonic.i_vminps. row_sim. }
row. { unfold Mnemonic32.i_vminsd, Mnemonic.i_vminsd. row_sim. }
row. { unfold Mnemonic32.i_vminss, Mnemonic.i_vminss. row_sim. }
row. { unfold Mnemonic32.i_vmovapd_ax, Mnemonic.i_vmovapd_ax. row_sim. }
row. { unfold Mnemonic32.i_vmovapd_xo, Mnemonic.i_vmovapd_xo. row_sim. }
row. { unfold Mnemonic32.i_vmovaps_ax, Mnemonic.i_vmovaps_ax. row_sim. }
row. { unfold Mnemonic32.i_vmovaps_xo, Mnemonic.i_vmovaps_xo. row_sim. }
row. { unfold Mnemonic32.i_vmovddup, Mnemonic.i_vmovddup. row_sim. }
row. { unfold Mnemonic32.i_vmovdqa_ax, Mnemonic.i_vmovdqa_ax. row_sim. }
row. { unfold Mnemonic32.i_vmovdqa_xo, Mnemonic.i_vmovdqa_xo. row_sim. }
row. { unfold Mnemonic32.i_vmovdqu_ax, Mnemonic.i_vmovdqu_ax. row_sim. }
row. { unfold Mnemonic32.i_vmovdqu_xo, Mnemonic.i_vmovdqu_xo. row_sim. }
row. { unfold Mnemonic32.i_vmovhlps, Mnemonic.i_vmovhlps. row_sim. }
row. { unfold Mnemonic32.i_vmovhpd_ax, Mnemonic.i_vmovhpd_ax. row_sim. }
row. { unfold Mnemonic32.i_vmovhpd_xoo, Mnemonic.i_vmovhpd_xoo. row_sim. }
row. { unfold Mnemonic32.i_vmovhps_ax, Mnemonic.i_vmovhps_ax. row_sim. }
row. { unfold Mnemonic32.i_vmovhps_xoo, Mnemonic.i_vmovhps_xoo. row_sim. }
apply Forall_nil. Qed.
Definition sims41 : list b_entry :=
  [mkB "vmovlhps" (fun v => let (o, a, r, n, e, s) := v in Mnemonic32.i_vmovlhps (r 0) (r 1) (o 2))
     (fun v => let (o, a, r, n, e, s) := v in Mnemonic.i_vmovlhps (r 0) (r 1) (widen_op (o 2)));
   mkB "vmovlpd_ax" (fun v => let (o, a, r, n, e, s) := v in Mnemonic32.i_vmovlpd_ax (a 0) (r 1))
     (fun v => let (o, a, r, n, e, s) := v in Mnemonic.i_vmovlpd_ax (widen_addr (a 0)) (r 1));
   mkB "vmovlpd_xoo" (fun v => let (o, a, r, n, e, s) := v in Mnemonic32.i_vmovlpd_xoo (r 0) (o 1) (o 2))
     (fun v => let (o, a, r, n, e, s) := v in Mnemonic.i_vmovlpd_xoo (r 0) (widen_op (o 1)) (widen_op (o 2)));
   mkB "vmovlps_ax" (fun v => let (o, a, r, n, e, s) := v in Mnemonic32.i_vmovlps_ax (a 0) (r 1))
     (fun v => let (o, a, r, n, e, s) := v in Mnemonic.i_vmovlps_ax (widen_addr (a 0)) (r 1));
   mkB "vmovlps_xoo" (fun v => let (o, a, r, n, e, s) := v in Mnemonic32.i_vmovlps_xoo (r 0) (o 1) (o 2))
     (fun v => let (o, a, r, n, e, s) := v in Mnemonic.i_vmovlps_xoo (r 0) (widen_op (o 1)) (widen_op (o 2)));
   mkB "vmovntdq" (fun v => let (o, a, r, n, e, s) := v in Mnemonic32.i_vmovntdq (a 0) (r 1))
     (fun v => let (o, a, r, n, e, s) := v in Mnemonic.i_vmovntdq (widen_addr (a 0)) (r 1));
   mkB "vmovntdqa" (fun v => let (o, a, r, n, e, s) := v in Mnemonic32.i_vmovntdqa (r 0) (a 1))
     (fun v => let (o, a, r, n, e, s) := v in Mnemonic.i_vmovntdqa (r 0) (widen_addr (a 1)));
   mkB "vmovntpd" (fun v => let (o, a, r, n, e, s) := v in Mnemonic32.i_vmovntpd (a 0) (r 1))
     (fun v => let (o, a, r, n, e, s) := v in Mnemonic.i_vmovntpd (widen_addr (a 0)) (r 1));
   mkB "vmovntps" (fun v => let (o, a, r, n, e, s) := v in Mnemonic32.i_vmovntps (a 0) (r 1))
     (fun v => let (o, a, r, n, e, s) := v in Mnemonic.i_vmovntps (widen_addr (a 0)) (r 1));
   mkB "vmovq_ax" (fun v => let (o, a, r, n, e, s) := v in Mnemonic32.i_vmovq_ax (a 0) (r 1))
     (fun v => let (o, a, r, n, e, s) := v in Mnemonic.i_vmovq_ax (widen_addr (a 0)) (r 1));
   mkB "vmovq_xa" (fun v => let (o, a, r, n, e, s) := v in Mnemonic32.i_vmovq_xa (r 0) (a 1))
     (fun v => let (o, a, r, n, e, s) := v in Mnemonic.i_vmovq_xa (r 0) (widen_addr (a 1)));
   mkB "vmovq_xx" (fun v => let (o, a, r, n, e, s) := v in Mnemonic32.i_vmovq_xx (r 0) (r 1))
     (fun v => let (o, a, r, n, e, s) := v in Mnemonic.i_vmovq_xx (r 0) (r 1));
   mkB "vmovsd_ax" (fun v => let (o, a, r, n, e, s) := v in Mnemonic32.i_vmovsd_ax (a 0) (r 1))
     (fun v => let (o, a, r, n, e, s) := v in Mnemonic.i_vmovsd_ax (widen_addr (a 0)) (r 1));
   mkB "vmovsd_xa" (fun v => let (o, a, r, n, e, s) := v in Mnemonic32.i_vmovsd_xa (r 0) (a 1))
     (fun v => let (o, a, r, n, e, s) := v in Mnemonic.i_vmovsd_xa (r 0) (widen_addr (a 1)));
   mkB "vmovsd_xxo" (fun v => let (o, a, r, n, e, s) := v in Mnemonic32.i_vmovsd_xxo (r 0) (r 1) (o 2))
     (fun v => let (o, a, r, n, e, s) := v in Mnemonic.i_vmovsd_xxo (r 0) (r 1) (widen_op (o 2)));
   mkB "vmovshdup" (fun v => let (o, a, r, n, e, s) := v in Mnemonic32.i_vmovshdup (r 0) (o 1))
     (fun v => let (o, a, r, n, e, s) := v in Mnemonic.i_vmovshdup (r 0) (widen_op (o 1)));
   mkB "vmovsldup" (fun v => let (o, a, r, n, e, s) := v in Mnemonic32.i_vmovsldup (r 0) (o 1))
     (fun v => let (o, a, r, n, e, s) := v in Mnemonic.i_vmovsldup (r 0) (widen_op (o 1)));
   mkB "vmovss_ax" (fun v => let (o, a, r, n, e, s) := v in Mnemonic32.i_vmovss_ax (a 0) (r 1))
     (fun v => let (o, a, r, n, e, s) := v in Mnemonic.i_vmovss_ax (widen_addr (a 0)) (r 1));
   mkB "vmovss_xa" (fun v => let (o, a, r, n, e, s) := v in Mnemonic32.i_vmovss_xa (r 0) (a 1))
     (fun v => let (o, a, r, n, e, s) := v in Mnemonic.i_vmovss_xa (r 0) (widen_addr (a 1)));
   mkB "vmovss_xxo" (fun v => let (o, a, r, n, e, s) := v in Mnemonic32.i_vmovss_xxo (r 0) (r 1) (o 2))
     (fun v => let (o, a, r, n, e, s) := v in Mnemonic.i_vmovss_xxo (r 0) (r 1) (widen_op (o 2)));
   mkB "vmovupd_ax" (fun v => let (o, a, r, n, e, s) := v in Mnemonic32.i_vmovupd_ax (a 0) (r 1))
     (fun v => let (o, a, r, n, e, s) := v in Mnemonic.i_vmovupd_ax (widen_addr (a 0)) (r 1));
   mkB "vmovupd_xo" (fun v => let (o, a, r, n, e, s) := v in Mnemonic32.i_vmovupd_xo (r 0) (o 1))
     (fun v => let (o, a, r, n, e, s) := v in Mnemonic.i_vmovupd_xo (r 0) (widen_op (o 1)));
   mkB "vmovups_ax" (fun v => let (o, a, r, n, e, s) := v in Mnemonic32.i_vmovups_ax (a 0) (r 1))
     (fun v => let (o, a, r, n, e, s) := v in Mnemonic.i_vmovups_ax (widen_addr (a 0)) (r 1));
   mkB "vmovups_xo" (fun v => let (o, a, r, n, e, s) := v in Mnemonic32.i_vmovups_xo (r 0) (o 1))
     (fun v => let (o, a, r, n, e, s) := v in Mnemonic.i_vmovups_xo (r 0) (widen_op (o 1)));
   mkB "vmulpd" (fun v => let (o, a, r, n, e, s) := v in Mnemonic32.i_vmulpd (r 0) (o 1) (o 2))
     (fun v => let (o, a, r, n, e, s) := v in Mnemonic.i_vmulpd (r 0) (widen_op (o 1)) (widen_op (o 2)))].
Lemma sims41_ok : Forall same sims41.
Proof. unfold sims41.
row. { unfold Mnemonic32.i_vmovlhps, Mnemonic.i_vmovlhps. row_sim. }
row. { unfold Mnemonic32.i_vmovlpd_ax, Mnemonic.i_vmovlpd_ax. row_sim. }
row. { unfold Mnemonic32.i_vmovlpd_xoo, Mnemonic.i_vmovlpd_xoo. row_sim. }
row. { unfold Mnemonic32.i_vmovlps_ax, Mnemonic.i_vmovlps_ax. row_sim. }
row. { unfold Mnemonic32.i_vmovlps_xoo, Mnemonic.i_vmovlps_xoo. row_sim. }
row. { unfold Mnemonic32.i_vmovntdq, Mnemonic.i_vmovntdq. row_sim. }
row. { unfold Mnemonic32.i_vmovntdqa, Mnemonic.i_vmovntdqa. row_sim. }
row. { unfold Mnemonic32.i_vmovntpd, Mnemonic.i_vmovntpd. row_sim. }
row. { unfold Mnemonic32.i_vmovntps, Mnemonic.i_vmovntps. row_sim. }
row. { unfold Mnemonic32.i_vmovq_ax, Mnemonic.i_vmovq_ax. row_sim. }
row. { unfold Mnemonic32.i_vmovq_xa, Mnemonic.i_vmovq_xa. row_sim. }
row. { unfold Mnemonic32.i_vmovq_xx, Mnemonic.i_vmovq_xx. row_sim. }
row. { unfold Mnemonic32.i_vmovsd_ax, Mnemonic.i_vmovsd_ax. row_sim. }
row. { unfold Mnemonic32.i_vmovsd_xa, Mnemonic.i_vmovsd_xa. row_sim. }
row. { unfold Mnemonic32.i_vmovsd_xxo, Mnemonic.i_vmovsd_xxo. row_sim. }
row. { unfold Mnemonic32.i_vmovshdup, Mnemonic.i_vmovshdup. row_sim. }
row. { unfold Mnemonic32.i_vmovsldup, Mnemonic.i_vmovsldup. row_sim. }
row. { unfold Mnemonic32.i_vmovss_ax, Mnemonic.i_vmovss_ax. row_sim. }
row. { unfold Mnemonic32.i_vmovss_xa, Mnemonic.i_vmovss_xa. row_sim. }
row. { unfold Mnemonic32.i_vmovss_xxo, Mnemonic.i_vmovss_xxo. row_sim. }
row. { unfold Mnemonic32.i_vmovupd_ax, Mnemonic.i_vmovupd_ax. row_sim. }
row. { unfold Mnemonic32.i_vmovupd_xo, Mnemonic.i_vmovupd_xo. row_sim. }
row. { unfold Mnemonic32.i_vmovups_ax, Mnemonic.i_vmovups_ax. row_sim. }
row. { unfold Mnemonic32.i_vmovups_xo, Mnemonic.i_vmovups_xo. row_sim. }
row. { unfold Mnemonic32.i_vmulpd, Mnemonic.i_vmulpd. row_sim. }
apply Forall_nil. Qed.
Definition sims42 : list b_entry :=
  [mkB "vmulps" (fun v => let (o, a, r, n, e, s) := v in Mnemonic32.i_vmulps (r 0) (o 1) (o 2))
     (fun v => let (o, a, r, n, e, s) := v in Mnemonic.i_vmulps (r 0) (widen_op (o 1)) (widen_op (o 2)));
   mkB "vmulsd" (fun v => let (o, a, r, n, e, s) := v in Mnemonic32.i_vmulsd (r 0) (o 1) (o 2))
     (fun v => let (o, a, r, n, e, s) := v in Mnemonic.i_vmulsd (r 0) (widen_op (o 1)) (widen_op (o 2)));
   mkB "vmulss" (fun v => let (o, a, r, n, e, s) := v in Mnemonic32.i_vmulss (r 0) (o 1) (o 2))
     (fun v => let (o, a, r, n, e, s) := v in Mnemonic.i_vmulss (r 0) (widen_op (o 1)) (widen_op (o 2)));
   mkB "vorpd" (fun v => let (o, a, r, n, e, s) := v in Mnemonic32.i_vorpd (r 0) (o 1) (o 2))
     (fun v => let (o, a, r, n, e, s) := v in Mnemonic.i_vorpd (r 0) (widen_op (o 1)) (widen_op (o 2)));
   mkB "vorps" (fun v => let (o, a, r, n, e, s) := v in Mnemonic32.i_vorps (r 0) (o 1) (o 2))
     (fun v => let (o, a, r, n, e, s) := v in Mnemonic.i_vorps (r 0) (widen_op (o 1)) (widen_op (o 2)));
   mkB "vpabsb" (fun v => let (o, a, r, n, e, s) := v in Mnemonic32.i_vpabsb (r 0) (o 1))
     (fun v => let (o, a, r, n, e, s) := v in Mnemonic.i_vpabsb (r 0) (widen_op (o 1)));
   mkB "vpabsd" (fun v => let (o, a, r, n, e, s) := v in Mnemonic32.i_vpabsd (r 0) (o 1))
     (fun v => let (o, a, r, n, e, s) := v in Mnemonic.i_vpabsd (r 0) (widen_op (o 1)));
   mkB "vpabsw" (fun v => let (o, a, r, n, e, s) := v in Mnemonic32.i_vpabsw (r 0) (o 1))
     (fun v => let (o, a, r, n, e, s) := v in Mnemonic.i_vpabsw (r 0) (widen_op (o 1)));
   mkB "vpackssdw_xxo" (fun v => let (o, a, r, n, e, s) := v in Mnemonic32.i_vpackssdw_xxo (r 0) (r 1) (o 2))
     (fun v => let (o, a, r, n, e, s) := v in Mnemonic.i_vpackssdw_xxo (r 0) (r 1) (widen_op (o 2)));
   mkB "vpacksswb_xxo" (fun v => let (o, a, r, n, e, s) := v in Mnemonic32.i_vpacksswb_xxo (r 0) (r 1) (o 2))
     (fun v => let (o, a, r, n, e, s) := v in Mnemonic.i_vpacksswb_xxo (r 0) (r 1) (widen_op (o 2)));
   mkB "vpackusdw_xxo" (fun v => let (o, a, r, n, e, s) := v in Mnemonic32.i_vpackusdw_xxo (r 0) (r 1) (o 2))
     (fun v => let (o, a, r, n, e, s) := v in Mnemonic.i_vpackusdw_xxo (r 0) (r 1) (widen_op (o 2)));
   mkB "vpackuswb_xxo" (fun v => let (o, a, r, n, e, s) := v in Mnemonic32.i_vpackuswb_xxo (r 0) (r 1) (o 2))
     (fun v => let (o, a, r, n, e, s) := v in Mnemonic.i_vpackuswb_xxo (r 0) (r 1) (widen_op (o 2)));
   mkB "vpaddb_xxo" (fun v => let (o, a, r, n, e, s) := v in Mnemonic32.i_vpaddb_xxo (r 0) (r 1) (o 2))
     (fun v => let (o, a, r, n, e, s) := v in Mnemonic.i_vpaddb_xxo (r 0) (r 1) (widen_op (o 2)));
   mkB "vpaddd_xxo" (fun v => let (o, a, r, n, e, s) := v in Mnemonic32.i_vpaddd_xxo (r 0) (r 1) (o 2))
     (fun v => let (o, a, r, n, e, s) := v in Mnemonic.i_vpaddd_xxo (r 0) (r 1) (widen_op (o 2)));
   mkB "vpaddq_xxo" (fun v => let (o, a, r, n, e, s) := v in Mnemonic32.i_vpaddq_xxo (r 0) (r 1) (o 2))
     (fun v => let (o, a, r, n, e, s) := v in Mnemonic.i_vpaddq_xxo (r 0) (r 1) (widen_op (o 2)));
   mkB "vpaddsb_xxo" (fun v => let (o, a, r, n, e, s) := v in Mnemonic32.i_vpaddsb_xxo (r 0) (r 1) (o 2))
     (fun v => let (o, a, r, n, e, s) := v in Mnemonic.i_vpaddsb_xxo (r 0) (r 1) (widen_op (o 2)));
   mkB "vpaddsw_xxo" (fun v => let (o, a, r, n, e, s) := v in Mnemonic32.i_vpaddsw_xxo (r 0) (r 1) (o 2))
     (fun v => let (o, a, r, n, e, s) := v in Mnemonic.i_vpaddsw_xxo (r 0) (r 1) (widen_op (o 2)));
   mkB "vpaddusb_xxo" (fun v => let (o, a, r, n, e, s) := v in Mnemonic32.i_vpaddusb_xxo (r 0) (r 1) (o 2))
     (fun v => let (o, a, r, n, e, s) := v in Mnemonic.i_vpaddusb_xxo (r 0) (r 1) (widen_op (o 2)));
   mkB "vpaddusw_xxo" (fun v => let (o, a, r, n, e, s) := v in Mnemonic32.i_vpaddusw_xxo (r 0) (r 1) (o 2))
     (fun v => let (o, a, r, n, e, s) := v in Mnemonic.i_vpaddusw_xxo (r 0) (r 1) (widen_op (o 2)));
   mkB "vpaddw_xxo" (fun v => let (o, a, r, n, e, s) := v in Mnemonic32.i_vpaddw_xxo (r 0) (r 1) (o 2))
     (fun v => let (o, a, r, n, e, s) := v in Mnemonic.i_vpaddw_xxo (r 0) (r 1) (widen_op (o 2)));
   mkB "vpalignr_xxoi" (fun v => let (o, a, r, n, e, s) := v in Mnemonic32.i_vpalignr_xxoi (r 0) (r 1) (o 2) (n 3))
     (fun v => let (o, a, r, n, e, s) := v in Mnemonic.i_vpalignr_xxoi (r 0) (r 1) (widen_op (o 2)) (n 3));
   mkB "vpand_xxo" (fun v => let (o, a, r, n, e, s) := v in Mnemonic32.i_vpand_xxo (r 0) (r 1) (o 2))
     (fun v => let (o, a, r, n, e, s) := v in Mnemonic.i_vpand_xxo (r 0) (r 1) (widen_op (o 2)));
   mkB "vpandn_xxo" (fun v => let (o, a, r, n, e, s) := v in Mnemonic32.i_vpandn_xxo (r 0) (r 1) (o 2))
     (fun v => let (o, a, r, n, e, s) := v in Mnemonic.i_vpandn_xxo (r 0) (r 1) (widen_op (o 2)));
   mkB "vpavgb_xxo" (fun v => let (o, a, r, n, e, s) := v in Mnemonic32.i_vpavgb_xxo (r 0) (r 1) (o 2))
     (fun v => let (o, a, r, n, e, s) := v in Mnemonic.i_vpavgb_xxo (r 0) (r 1) (widen_op (o 2)));
   mkB "vpavgw_xxo" (fun v => let (o, a, r, n, e, s) := v in Mnemonic32.i_vpavgw_xxo (r 0) (r 1) (o 2))
     (fun v => let (o, a, r, n, e, s) := v in Mnemonic.i_vpavgw_xxo (r 0) (r 1) (widen_op (o 2)))].
Lemma sims42_ok : Forall same sims42.
Proof. unfold sims42.
row. { unfold Mnemonic32.i_vmulps, Mnemonic.i_vmulps. row_sim. }
row. { unfold Mnemonic32.i_vmulsd, Mnemonic.i_vmulsd. row_sim. }
row. { unfold Mnemonic32.i_vmulss, Mnemonic.i_vmulss. row_sim. }
row. { unfold Mnemonic32.i_vorpd, Mnemonic.i_vorpd. row_sim. }
row. { unfold Mnemonic32.i_vorps, Mnemonic.i_vorps. row_sim. }
row. { unfold Mnemonic32.i_vpabsb, Mnemonic.i_vpabsb. row_sim. }
row. { unfold Mnemonic32.i_vpabsd, Mnemonic.i_vpabsd. row_sim. }
row. { unfold Mnemonic32.i_vpabsw, Mnemonic.i_vpabsw. row_sim. }
row. { unfold Mnemonic32.i_vpackssdw_xxo, Mnemonic.i_vpackssdw_xxo. row_sim. }
row. { unfold Mnemonic32.i_vpacksswb_xxo, Mnemonic.i_vpacksswb_xxo. row_sim. }
row. { unfold Mnemonic32.i_vpackusdw_xxo, Mnemonic.i_vpackusdw_xxo. row_sim. }
row. { unfold Mnemonic32.i_vpackuswb_xxo, Mnemonic.i_vpackuswb_xxo. row_sim. }
row. { unfold Mnemonic32.i_vpaddb_xxo, Mnemonic.i_vpaddb_xxo. row_sim. }
row. { unfold Mnemonic32.i_vpaddd_xxo, Mnemonic.i_vpaddd_xxo. row_sim. }
row. { unfold Mnemonic32.i_vpaddq_xxo, Mnemonic.i_vpaddq_xxo. row_sim. }
row. { unfold Mnemonic32.i_vpaddsb_xxo, Mnemonic.i_vpaddsb_xxo. row_sim. }
row. { unfold Mnemonic32.i_vpaddsw_xxo, Mnemonic.i_vpaddsw_xxo. row_sim. }
row. { unfold Mnemonic32.i_vpaddusb_xxo, Mnemonic.i_vpaddusb_xxo. row_sim. }
row. { unfold Mnemonic32.i_vpaddusw_xxo, Mnemonic.i_vpaddusw_xxo. row_sim. }
row. { unfold Mnemonic32.i_vpaddw_xxo, Mnemonic.i_vpaddw_xxo. row_sim. }
row. { unfold Mnemonic32.i_vpalignr_xxoi, Mnemonic.i_vpalignr_xxoi. row_sim. }
row. { unfold Mnemonic32.i_vpand_xxo, Mnemonic.i_vpand_xxo. row_sim. }
row. { unfold Mnemonic32.i_vpandn_xxo, Mnemonic.i_vpandn_xxo. row_sim. }
row. { unfold Mnemonic32.i_vpavgb_xxo, Mnemonic.i_vpavgb_xxo. row_sim. }
row. { unfold Mnemonic32.i_vpavgw_xxo, Mnemonic.i_vpavgw_xxo. row_sim. }
apply Forall_nil. Qed.
Definition sims43 : list b_entry :=
  [mkB "vpblendd_xxoi" (fun v => let (o, a, r, n, e, s) := v in Mnemonic32.i_vpblendd_xxoi (r 0) (r 1) (o 2) (n 3))
     (fun v => let (o, a, r, n, e, s) := v in Mnemonic.i_vpblendd_xxoi (r 0) (r 1) (widen_op (o 2)) (n 3));
   mkB "vpblendvb_xxox" (fun v => let (o, a, r, n, e, s) := v in Mnemonic32.i_vpblendvb_xxox (r 0) (r 1) (o 2) (r 3))
     (fun v => let (o, a, r, n, e, s) := v in Mnemonic.i_vpblendvb_xxox (r 0) (r 1) (widen_op (o 2)) (r 3));
   mkB "vpblendw_xxoi" (fun v => let (o, a, r, n, e, s) := v in Mnemonic32.i_vpblendw_xxoi (r 0) (r 1) (o 2) (n 3))
     (fun v => let (o, a, r, n, e, s) := v in Mnemonic.i_vpblendw_xxoi (r 0) (r 1) (widen_op (o 2)) (n 3));
   mkB "vpbroadcastb_xo" (fun v => let (o, a, r, n, e, s) := v in Mnemonic32.i_vpbroadcastb_xo (r 0) (o 1))
     (fun v => let (o, a, r, n, e, s) := v in Mnemonic.i_vpbroadcastb_xo (r 0) (widen_op (o 1)));
   mkB "vpbroadcastd_xo" (fun v => let (o, a, r, n, e, s) := v in Mnemonic32.i_vpbroadcastd_xo (r 0) (o 1))
     (fun v => let (o, a, r, n, e, s) := v in Mnemonic.i_vpbroadcastd_xo (r 0) (widen_op (o 1)));
   mkB "vpbroadcastq_xo" (fun v => let (o, a, r, n, e, s) := v in Mnemonic32.i_vpbroadcastq_xo (r 0) (o 1))
     (fun v => let (o, a, r, n, e, s) := v in Mnemonic.i_vpbroadcastq_xo (r 0) (widen_op (o 1)));
   mkB "vpbroadcastw_xo" (fun v => let (o, a, r, n, e, s) := v in Mnemonic32.i_vpbroadcastw_xo (r 0) (o 1))
     (fun v => let (o, a, r, n, e, s) := v in Mnemonic.i_vpbroadcastw_xo (r 0) (widen_op (o 1)));
   mkB "vpclmulqdq_xxoi" (fun v => let (o, a, r, n, e, s) := v in Mnemonic32.i_vpclmulqdq_xxoi (r 0) (r 1) (o 2) (n 3))
     (fun v => let (o, a, r, n, e, s) := v in Mnemonic.i_vpclmulqdq_xxoi (r 0) (r 1) (widen_op (o 2)) (n 3));
   mkB "vpclmulhqhqdq" (fun v => let (o, a, r, n, e, s) := v in Mnemonic32.i_vpclmulhqhqdq (r 0) (r 1) (o 2))
     (fun v => let (o, a, r, n, e, s) := v in Mnemonic.i_vpclmulhqhqdq (r 0) (r 1) (widen_op (o 2)));
   mkB "vpclmulhqlqdq" (fun v => let (o, a, r, n, e, s) := v in Mnemonic32.i_vpclmulhqlqdq (r 0) (r 1) (o 2))
     (fun v => let (o, a, r, n, e, s) := v in Mnemonic.i_vpclmulhqlqdq (r 0) (r 1) (widen_op (o 2)));
   mkB "vpclmullqhqdq" (fun v => let (o, a, r, n, e, s) := v in Mnemonic32.i_vpclmullqhqdq (r 0) (r 1) (o 2))
     (fun v => let (o, a, r, n, e, s) := v in Mnemonic.i_vpclmullqhqdq (r 0) (r 1) (widen_op (o 2)));
   mkB "vpclmullqlqdq" (fun v => let (o, a, r, n, e, s) := v in Mnemonic32.i_vpclmullqlqdq (r 0) (r 1) (o 2))
     (fun v => let (o, a, r, n, e, s) := v in Mnemonic.i_vpclmullqlqdq (r 0) (r 1) (widen_op (o 2)));
   mkB "vpcmpeqb_xxo" (fun v => let (o, a, r, n, e, s) := v in Mnemonic32.i_vpcmpeqb_xxo (r 0) (r 1) (o 2))
     (fun v => let (o, a, r, n, e, s) := v in Mnemonic.i_vpcmpeqb_xxo (r 0) (r 1) (widen_op (o 2)));
   mkB "vpcmpeqd_xxo" (fun v => let (o, a, r, n, e, s) := v in Mnemonic32.i_vpcmpeqd_xxo (r 0) (r 1) (o 2))
     (fun v => let (o, a, r, n, e, s) := v in Mnemonic.i_vpcmpeqd_xxo (r 0) (r 1) (widen_op (o 2)));
   mkB "vpcmpeqq_xxo" (fun v => let (o, a, r, n, e, s) := v in Mnemonic32.i_vpcmpeqq_xxo (r 0) (r 1) (o 2))
     (fun v => let (o, a, r, n, e, s) := v in Mnemonic.i_vpcmpeqq_xxo (r 0) (r 1) (widen_op (o 2)));
   mkB "vpcmpeqw_xxo" (fun v => let (o, a, r, n, e, s) := v in Mnemonic32.i_vpcmpeqw_xxo (r 0) (r 1) (o 2))
     (fun v => let (o, a, r, n, e, s) := v in Mnemonic.i_vpcmpeqw_xxo (r 0) (r 1) (widen_op (o 2)));
   mkB "vpcmpestri" (fun v => let (o, a, r, n, e, s) := v in Mnemonic32.i_vpcmpestri (r 0) (o 1) (n 2))
     (fun v => let (o, a, r, n, e, s) := v in Mnemonic.i_vpcmpestri (r 0) (widen_op (o 1)) (n 2));
   mkB "vpcmpestrm" (fun v => let (o, a, r, n, e, s) := v in Mnemonic32.i_vpcmpestrm (r 0) (o 1) (n 2))
     (fun v => let (o, a, r, n, e, s) := v in Mnemonic.i_vpcmpestrm (r 0) (widen_op (o 1)) (n 2));
   mkB "vpcmpgtb_xxo" (fun v => let (o, a, r, n, e, s) := v in Mnemonic32.i_vpcmpgtb_xxo (r 0) (r 1) (o 2))
     (fun v => let (o, a, r, n, e, s) := v in Mnemonic.i_vpcmpgtb_xxo (r 0) (r 1) (widen_op (o 2)));
   mkB "vpcmpgtd_xxo" (fun v => let (o, a, r, n, e, s) := v in Mnemonic32.i_vpcmpgtd_xxo (r 0) (r 1) (o 2))
     (fun v => let (o, a, r, n, e, s) := v in Mnemonic.i_vpcmpgtd_xxo (r 0) (r 1) (widen_op (o 2)));
   mkB "vpcmpgtq_xxo" (fun v => let (o, a, r, n, e, s) := v in Mnemonic32.i_vpcmpgtq_xxo (r 0) (r 1) (o 2))
     (fun v => let (o, a, r, n, e, s) := v in Mnemonic.i_vpcmpgtq_xxo (r 0) (r 1) (widen_op (o 2)));
   mkB "vpcmpgtw_xxo" (fun v => let (o, a, r, n, e, s) := v in Mnemonic32.i_vpcmpgtw_xxo (r 0) (r 1) (o 2))
     (fun v => let (o, a, r, n, e, s) := v in Mnemonic.i_vpcmpgtw_xxo (r 0) (r 1) (widen_op (o 2)));
   mkB "vpcmpistri" (fun v => let (o, a, r, n, e, s) := v in Mnemonic32.i_vpcmpistri (r 0) (o 1) (n 2))
     (fun v => let (o, a, r, n, e, s) := v in Mnemonic.i_vpcmpistri (r 0) (widen_op (o 1)) (n 2));
   mkB "vpcmpistrm" (fun v => let (o, a, r, n, e, s) := v in Mnemonic32.i_vpcmpistrm (r 0) (o 1) (n 2))
     (fun v => let (o, a, r, n, e, s) := v in Mnemonic.i_vpcmpistrm (r 0) (widen_op (o 1)) (n 2));
   mkB "vpdpbusd" (fun v => let (o, a, r, n, e, s) := v in Mnemonic32.i_vpdpbusd (r 0) (r 1) (o 2) e)
     (fun v => let (o, a, r, n, e, s) := v in Mnemonic.i_vpdpbusd (r 0) (r 1) (widen_op (o 2)) e)].
Lemma sims43_ok : Forall same sims43.
Proof. unfold sims43.
row. { unfold Mnemonic32.i_vpblendd_xxoi, Mnemonic.i_vpblendd_xxoi. row_sim. }
row. { unfold Mnemonic32.i_vpblendvb_xxox, Mnemonic.i_vpblendvb_xxox. row_sim. }
row. { unfold Mnemonic32.i_vpblendw_xxoi, Mnemonic.i_vpblendw_xxoi. row_sim. }
row. { unfold Mnemonic32.i_vpbroadcastb_xo, Mnemonic.i_vpbroadcastb_xo. row_sim. }
row. { unfold Mnemonic32.i_vpbroadcastd_xo, Mnemonic.i_vpbroadcastd_xo. row_sim. }
row. { unfold Mnemonic32.i_vpbroadcastq_xo, Mnemonic.i_vpbroadcastq_xo. row_sim. }
row. { unfold Mnemonic32.i_vpbroadcastw_xo, Mnemonic.i_vpbroadcastw_xo. row_sim. }
row. { unfold Mnemonic32.i_vpclmulqdq_xxoi, Mnemonic.i_vpclmulqdq_xxoi. row_sim. }
row. { unfold Mnemonic32.i_vpclmulhqhqdq, Mnemonic32.i_vpclmulqdq_xxoi, Mnemonic.i_vpclmulhqhqdq, Mnemonic.i_vpclmulqdq_xxoi. row_sim. }
row. { unfold Mnemonic32.i_vpclmulhqlqdq, Mnemonic32.i_vpclmulqdq_xxoi, Mnemonic.i_vpclmulhqlqdq, Mnemonic.i_vpclmulqdq_xxoi. row_sim. }
row. { unfold Mnemonic32.i_vpclmullqhqdq, Mnemonic32.i_vpclmulqdq_xxoi, Mnemonic.i_vpclmullqhqdq, Mnemonic.i_vpclmulqdq_xxoi. row_sim. }
row. { unfold Mnemonic32.i_vpclmullqlqdq, Mnemonic32.i_vpclmulqdq_xxoi, Mnemonic.i_vpclmullqlqdq, Mnemonic.i_vpclmulqdq_xxoi. row_sim. }
row. { unfold Mnemonic32.i_vpcmpeqb_xxo, Mnemonic.i_vpcmpeqb_xxo. row_sim. }
row. { unfold Mnemonic32.i_vpcmpeqd_xxo, Mnemonic.i_vpcmpeqd_xxo. row_sim. }
row. { unfold Mnemonic32.i_vpcmpeqq_xxo, Mnemonic.i_vpcmpeqq_xxo. row_sim. }
row. { unfold Mnemonic32.i_vpcmpeqw_xxo, Mnemonic.i_vpcmpeqw_xxo. row_sim. }
row. { unfold Mnemonic32.i_vpcmpestri, Mnemonic.i_vpcmpestri. row_sim. }
row. { unfold Mnemonic32.i_vpcmpestrm, Mnemonic.i_vpcmpestrm. row_sim. }
row. { unfold Mnemonic32.i_vpcmpgtb_xxo, Mnemonic.i_vpcmpgtb_xxo. row_sim. }
row. { unfold Mnemonic32.i_vpcmpgtd_xxo, Mnemonic.i_vpcmpgtd_xxo. row_sim. }
row. { unfold Mnemonic32.i_vpcmpgtq_xxo, Mnemonic.i_vpcmpgtq_xxo. row_sim. }
row. { unfold Mnemonic32.i_vpcmpgtw_xxo, Mnemonic.i_vpcmpgtw_xxo. row_sim. }
row. { unfold Mnemonic32.i_vpcmpistri, Mnemonic.i_vpcmpistri. row_sim. }
row. { unfold Mnemonic32.i_vpcmpistrm, Mnemonic.i_vpcmpistrm. row_sim. }
row. { unfold Mnemonic32.i_vpdpbusd, Mnemonic.i_vpdpbusd. row_sim. }
apply Forall_nil. Qed.
Definition sims44 : list b_entry :=
  [mkB "vpdpbusds" (fun v => let (o, a, r, n, e, s) := v in Mnemonic32.i_vpdpbusds (r 0) (r 1) (o 2) e)
     (fun v => let (o, a, r, n, e, s) := v in Mnemonic.i_vpdpbusds (r 0) (r 1) (widen_op (o 2)) e);
   mkB "vpdpwssd" (fun v => let (o, a, r, n, e, s) := v in Mnemonic32.i_vpdpwssd (r 0) (r 1) (o 2) e)
     (fun v => let (o, a, r, n, e, s) := v in Mnemonic.i_vpdpwssd (r 0) (r 1) (widen_op (o 2)) e);
   mkB "vpdpwssds" (fun v => let (o, a, r, n, e, s) := v in Mnemonic32.i_vpdpwssds (r 0) (r 1) (o 2) e)
     (fun v => let (o, a, r, n, e, s) := v in Mnemonic.i_vpdpwssds (r 0) (r 1) (widen_op (o 2)) e);
   mkB "vperm2f128" (fun v => let (o, a, r, n, e, s) := v in Mnemonic32.i_vperm2f128 (r 0) (r 1) (o 2) (n 3))
     (fun v => let (o, a, r, n, e, s) := v in Mnemonic.i_vperm2f128 (r 0) (r 1) (widen_op (o 2)) (n 3));
   mkB "vperm2i128" (fun v => let (o, a, r, n, e, s) := v in Mnemonic32.i_vperm2i128 (r 0) (r 1) (o 2) (n 3))
     (fun v => let (o, a, r, n, e, s) := v in Mnemonic.i_vperm2i128 (r 0) (r 1) (widen_op (o 2)) (n 3));
   mkB "vpermd" (fun v => let (o, a, r, n, e, s) := v in Mnemonic32.i_vpermd (r 0) (r 1) (o 2))
     (fun v => let (o, a, r, n, e, s) := v in Mnemonic.i_vpermd (r 0) (r 1) (widen_op (o 2)));
   mkB "vpermilpd_xxo" (fun v => let (o, a, r, n, e, s) := v in Mnemonic32.i_vpermilpd_xxo (r 0) (r 1) (o 2))
     (fun v => let (o, a, r, n, e, s) := v in Mnemonic.i_vpermilpd_xxo (r 0) (r 1) (widen_op (o 2)));
   mkB "vpermilpd_xoi" (fun v => let (o, a, r, n, e, s) := v in Mnemonic32.i_vpermilpd_xoi (r 0) (o 1) (n 2))
     (fun v => let (o, a, r, n, e, s) := v in Mnemonic.i_vpermilpd_xoi (r 0) (widen_op (o 1)) (n 2));
   mkB "vpermilps_xxo" (fun v => let (o, a, r, n, e, s) := v in Mnemonic32.i_vpermilps_xxo (r 0) (r 1) (o 2))
     (fun v => let (o, a, r, n, e, s) := v in Mnemonic.i_vpermilps_xxo (r 0) (r 1) (widen_op (o 2)));
   mkB "vpermilps_xoi" (fun v => let (o, a, r, n, e, s) := v in Mnemonic32.i_vpermilps_xoi (r 0) (o 1) (n 2))
     (fun v => let (o, a, r, n, e, s) := v in Mnemonic.i_vpermilps_xoi (r 0) (widen_op (o 1)) (n 2));
   mkB "vpermpd_yoi" (fun v => let (o, a, r, n, e, s) := v in Mnemonic32.i_vpermpd_yoi (r 0) (o 1) (n 2))
     (fun v => let (o, a, r, n, e, s) := v in Mnemonic.i_vpermpd_yoi (r 0) (widen_op (o 1)) (n 2));
   mkB "vpermpd_yyo" (fun v => let (o, a, r, n, e, s) := v in Mnemonic32.i_vpermpd_yyo (r 0) (r 1) (o 2))
     (fun v => let (o, a, r, n, e, s) := v in Mnemonic.i_vpermpd_yyo (r 0) (r 1) (widen_op (o 2)));
   mkB "vpermps" (fun v => let (o, a, r, n, e, s) := v in Mnemonic32.i_vpermps (r 0) (r 1) (o 2))
     (fun v => let (o, a, r, n, e, s) := v in Mnemonic.i_vpermps (r 0) (r 1) (widen_op (o 2)));
   mkB "vpermq_yoi" (fun v => let (o, a, r, n, e, s) := v in Mnemonic32.i_vpermq_yoi (r 0) (o 1) (n 2))
     (fun v => let (o, a, r, n, e, s) := v in Mnemonic.i_vpermq_yoi (r 0) (widen_op (o 1)) (n 2));
   mkB "vpermq_yyo" (fun v => let (o, a, r, n, e, s) := v in Mnemonic32.i_vpermq_yyo (r 0) (r 1) (o 2))
     (fun v => let (o, a, r, n, e, s) := v in Mnemonic.i_vpermq_yyo (r 0) (r 1) (widen_op (o 2)));
   mkB "vpextrb" (fun v => let (o, a, r, n, e, s) := v in Mnemonic32.i_vpextrb (o 0) (r 1) (n 2))
     (fun v => let (o, a, r, n, e, s) := v in Mnemonic.i_vpextrb (widen_op (o 0)) (r 1) (n 2));
   mkB "vpextrd" (fun v => let (o, a, r, n, e, s) := v in Mnemonic32.i_vpextrd (o 0) (r 1) (n 2))
     (fun v => let (o, a, r, n, e, s) := v in Mnemonic.i_vpextrd (widen_op (o 0)) (r 1) (n 2));
   mkB "vpextrq" (fun v => let (o, a, r, n, e, s) := v in Mnemonic32.i_vpextrq (o 0) (r 1) (n 2))
     (fun v => let (o, a, r, n, e, s) := v in Mnemonic.i_vpextrq (widen_op (o 0)) (r 1) (n 2));
   mkB "vpextrw" (fun v => let (o, a, r, n, e, s) := v in Mnemonic32.i_vpextrw (o 0) (r 1) (n 2))
     (fun v => let (o, a, r, n, e, s) := v in Mnemonic.i_vpextrw (widen_op (o 0)) (r 1) (n 2));
   mkB "vpgatherdd_xax" (fun v => let (o, a, r, n, e, s) := v in Mnemonic32.i_vpgatherdd_xax (r 0) (a 1) (r 2))
     (fun v => let (o, a, r, n, e, s) := v in Mnemonic.i_vpgatherdd_xax (r 0) (widen_addr (a 1)) (r 2));
   mkB "vpgatherdq_xax" (fun v => let (o, a, r, n, e, s) := v in Mnemonic32.i_vpgatherdq_xax (r 0) (a 1) (r 2))
     (fun v => let (o, a, r, n, e, s) := v in Mnemonic.i_vpgatherdq_xax (r 0) (widen_addr (a 1)) (r 2));
   mkB "vpgatherqd_xax" (fun v => let (o, a, r, n, e, s) := v in Mnemonic32.i_vpgatherqd_xax (r 0) (a 1) (r 2))
     (fun v => let (o, a, r, n, e, s) := v in Mnemonic.i_vpgatherqd_xax (r 0) (widen_addr (a 1)) (r 2));
   mkB "vpgatherqq_xax" (fun v => let (o, a, r, n, e, s) := v in Mnemonic32.i_vpgatherqq_xax (r 0) (a 1) (r 2))
     (fun v => let (o, a, r, n, e, s) := v in Mnemonic.i_vpgatherqq_xax (r 0) (widen_addr (a 1)) (r 2));
   mkB "vphaddd_xxo" (fun v => let (o, a, r, n, e, s) := v in Mnemonic32.i_vphaddd_xxo (r 0) (r 1) (o 2))
     (fun v => let (o, a, r, n, e, s) := v in Mnemonic.i_vphaddd_xxo (r 0) (r 1) (widen_op (o 2)));
   mkB "vphaddsw_xxo" (fun v => let (o, a, r, n, e, s) := v in Mnemonic32.i_vphaddsw_xxo (r 0) (r 1) (o 2))
     (fun v => let (o, a, r, n, e, s) := v in Mnemonic.i_vphaddsw_xxo (r 0) (r 1) (widen_op (o 2)))].
Lemma sims44_ok : Forall same sims44.
Proof. unfold sims44.
row. { unfold Mnemonic32.i_vpdpbusds, Mnemonic.i_vpdpbusds. row_sim. }
row. { unfold Mnemonic32.i_vpdpwssd, Mnemonic.i_vpdpwssd. row_sim. }
row. { unfold Mnemonic32.i_vpdpwssds, Mnemonic.i_vpdpwssds. row_sim. }
row. { unfold Mnemonic32.i_vperm2f128, Mnemonic.i_vperm2f128. row_sim. }
row. { unfold Mnemonic32.i_vperm2i128, Mnemonic.i_vperm2i128. row_sim. }
row. { unfold Mnemonic32.i_vpermd, Mnemonic.i_vpermd. row_sim. }
row. { unfold Mnemonic32.i_vpermilpd_xxo, Mnemonic.i_vpermilpd_xxo. row_sim. }
row. { unfold Mnemonic32.i_vpermilpd_xoi, Mnemonic.i_vpermilpd_xoi. row_sim. }
row. { unfold Mnemonic32.i_vpermilps_xxo, Mnemonic.i_vpermilps_xxo. row_sim. }
row. { unfold Mnemonic32.i_vpermilps_xoi, Mnemonic.i_vpermilps_xoi. row_sim. }
row. { unfold Mnemonic32.i_vpermpd_yoi, Mnemonic.i_vpermpd_yoi. row_sim. }
row. { unfold Mnemonic32.i_vpermpd_yyo, Mnemonic.i_vpermpd_yyo. row_sim. }
row. { unfold Mnemonic32.i_vpermps, Mnemonic.i_vpermps. row_sim. }
row. { unfold Mnemonic32.i_vpermq_yoi, Mnemonic.i_vpermq_yoi. row_sim. }
row. { unfold Mnemonic32.i_vpermq_yyo, Mnemonic.i_vpermq_yyo. row_sim. }
row. { unfold Mnemonic32.i_vpextrb, Mnemonic.i_vpextrb. row_sim. }
row. { unfold Mnemonic32.i_vpextrd, Mnemonic.i_vpextrd. row_sim. }
row. { unfold Mnemonic32.i_vpextrq, Mnemonic.i_vpextrq. row_sim. }
row. { unfold Mnemonic32.i_vpextrw, Mnemonic.i_vpextrw. row_sim. }
row. { unfold Mnemonic32.i_vpgatherdd_xax, Mnemonic.i_vpgatherdd_xax. row_sim. }
row. { unfold Mnemonic32.i_vpgatherdq_xax, Mnemonic.i_vpgatherdq_xax. row_sim. }
row. { unfold Mnemonic32.i_vpgatherqd_xax, Mnemonic.i_vpgatherqd_xax. row_sim. }
row. { unfold Mnemonic32.i_vpgatherqq_xax, Mnemonic.i_vpgatherqq_xax. row_sim. }
row. { unfold Mnemonic32.i_vphaddd_xxo, Mnemonic.i_vphaddd_xxo. row_sim. }
row. { unfold Mnemonic32.i_vphaddsw_xxo, Mnemonic.i_vphaddsw_xxo. row_sim. }
apply Forall_nil. Qed.
Definition sims45 : list b_entry :=
  [mkB "vphaddw_xxo" (fun v => let (o, a, r, n, e, s) := v in Mnemonic32.i_vphaddw_xxo (r 0) (r 1) (o 2))
     (fun v => let (o, a, r, n, e, s) := v in Mnemonic.i_vphaddw_xxo (r 0) (r 1) (widen_op (o 2)));
   mkB "vphminposuw" (fun v => let (o, a, r, n, e, s) := v in Mnemonic32.i_vphminposuw (r 0) (o 1))
     (fun v => let (o, a, r, n, e, s) := v in Mnemonic.i_vphminposuw (r 0) (widen_op (o 1)));
   mkB "vphsubd_xxo" (fun v => let (o, a, r, n, e, s) := v in Mnemonic32.i_vphsubd_xxo (r 0) (r 1) (o 2))
     (fun v => let (o, a, r, n, e, s) := v in Mnemonic.i_vphsubd_xxo (r 0) (r 1) (widen_op (o 2)));
   mkB "vphsubsw_xxo" (fun v => let (o, a, r, n, e, s) := v in Mnemonic32.i_vphsubsw_xxo (r 0) (r 1) (o 2))
     (fun v => let (o, a, r, n, e, s) := v in Mnemonic.i_vphsubsw_xxo (r 0) (r 1) (widen_op (o 2)));
   mkB "vphsubw_xxo" (fun v => let (o, a, r, n, e, s) := v in Mnemonic32.i_vphsubw_xxo (r 0) (r 1) (o 2))
     (fun v => let (o, a, r, n, e, s) := v in Mnemonic.i_vphsubw_xxo (r 0) (r 1) (widen_op (o 2)));
   mkB "vpinsrb_xxoi" (fun v => let (o, a, r, n, e, s) := v in Mnemonic32.i_vpinsrb_xxoi (r 0) (r 1) (o 2) (n 3))
     (fun v => let (o, a, r, n, e, s) := v in Mnemonic.i_vpinsrb_xxoi (r 0) (r 1) (widen_op (o 2)) (n 3));
   mkB "vpinsrd_xxoi" (fun v => let (o, a, r, n, e, s) := v in Mnemonic32.i_vpinsrd_xxoi (r 0) (r 1) (o 2) (n 3))
     (fun v => let (o, a, r, n, e, s) := v in Mnemonic.i_vpinsrd_xxoi (r 0) (r 1) (widen_op (o 2)) (n 3));
   mkB "vpinsrq_xxoi" (fun v => let (o, a, r, n, e, s) := v in Mnemonic32.i_vpinsrq_xxoi (r 0) (r 1) (o 2) (n 3))
     (fun v => let (o, a, r, n, e, s) := v in Mnemonic.i_vpinsrq_xxoi (r 0) (r 1) (widen_op (o 2)) (n 3));
   mkB "vpinsrw_xxoi" (fun v => let (o, a, r, n, e, s) := v in Mnemonic32.i_vpinsrw_xxoi (r 0) (r 1) (o 2) (n 3))
     (fun v => let (o, a, r, n, e, s) := v in Mnemonic.i_vpinsrw_xxoi (r 0) (r 1) (widen_op (o 2)) (n 3));
   mkB "vpmaddubsw_xxo" (fun v => let (o, a, r, n, e, s) := v in Mnemonic32.i_vpmaddubsw_xxo (r 0) (r 1) (o 2))
     (fun v => let (o, a, r, n, e, s) := v in Mnemonic.i_vpmaddubsw_xxo (r 0) (r 1) (widen_op (o 2)));
   mkB "vpmaddwd_xxo" (fun v => let (o, a, r, n, e, s) := v in Mnemonic32.i_vpmaddwd_xxo (r 0) (r 1) (o 2))
     (fun v => let (o, a, r, n, e, s) := v in Mnemonic.i_vpmaddwd_xxo (r 0) (r 1) (widen_op (o 2)));
   mkB "vpmaskmovd_axx" (fun v => let (o, a, r, n, e, s) := v in Mnemonic32.i_vpmaskmovd_axx (a 0) (r 1) (r 2))
     (fun v => let (o, a, r, n, e, s) := v in Mnemonic.i_vpmaskmovd_axx (widen_addr (a 0)) (r 1) (r 2));
   mkB "vpmaskmovd_xxa" (fun v => let (o, a, r, n, e, s) := v in Mnemonic32.i_vpmaskmovd_xxa (r 0) (r 1) (a 2))
     (fun v => let (o, a, r, n, e, s) := v in Mnemonic.i_vpmaskmovd_xxa (r 0) (r 1) (widen_addr (a 2)));
   mkB "vpmaskmovq_axx" (fun v => let (o, a, r, n, e, s) := v in Mnemonic32.i_vpmaskmovq_axx (a 0) (r 1) (r 2))
     (fun v => let (o, a, r, n, e, s) := v in Mnemonic.i_vpmaskmovq_axx (widen_addr (a 0)) (r 1) (r 2));
   mkB "vpmaskmovq_xxa" (fun v => let (o, a, r, n, e, s) := v in Mnemonic32.i_vpmaskmovq_xxa (r 0) (r 1) (a 2))
     (fun v => let (o, a, r, n, e, s) := v in Mnemonic.i_vpmaskmovq_xxa (r 0) (r 1) (widen_addr (a 2)));
   mkB "vpmaxsb_xxo" (fun v => let (o, a, r, n, e, s) := v in Mnemonic32.i_vpmaxsb_xxo (r 0) (r 1) (o 2))
     (fun v => let (o, a, r, n, e, s) := v in Mnemonic.i_vpmaxsb_xxo (r 0) (r 1) (widen_op (o 2)));
   mkB "vpmaxsd_xxo" (fun v => let (o, a, r, n, e, s) := v in Mnemonic32.i_vpmaxsd_xxo (r 0) (r 1) (o 2))
     (fun v => let (o, a, r, n, e, s) := v in Mnemonic.i_vpmaxsd_xxo (r 0) (r 1) (widen_op (o 2)));
   mkB "vpmaxsw_xxo" (fun v => let (o, a, r, n, e, s) := v in Mnemonic32.i_vpmaxsw_xxo (r 0) (r 1) (o 2))
     (fun v => let (o, a, r, n, e, s) := v in Mnemonic.i_vpmaxsw_xxo (r 0) (r 1) (widen_op (o 2)));
   mkB "vpmaxub_xxo" (fun v => let (o, a, r, n, e, s) := v in Mnemonic32.i_vpmaxub_xxo (r 0) (r 1) (o 2))
     (fun v => let (o, a, r, n, e, s) := v in Mnemonic.i_vpmaxub_xxo (r 0) (r 1) (widen_op (o 2)));
   mkB "vpmaxud_xxo" (fun v => let (o, a, r, n, e, s) := v in Mnemonic32.i_vpmaxud_xxo (r 0) (r 1) (o 2))
     (fun v => let (o, a, r, n, e, s) := v in Mnemonic.i_vpmaxud_xxo (r 0) (r 1) (widen_op (o 2)));
   mkB "vpmaxuw_xxo" (fun v => let (o, a, r, n, e, s) := v in Mnemonic32.i_vpmaxuw_xxo (r 0) (r 1) (o 2))
     (fun v => let (o, a, r, n, e, s) := v in Mnemonic.i_vpmaxuw_xxo (r 0) (r 1) (widen_op (o 2)));
   mkB "vpminsb_xxo" (fun v => let (o, a, r, n, e, s) := v in Mnemonic32.i_vpminsb_xxo (r 0) (r 1) (o 2))
     (fun v => let (o, a, r, n, e, s) := v in Mnemonic.i_vpminsb_xxo (r 0) (r 1) (widen_op (o 2)));
   mkB "vpminsd_xxo" (fun v => let (o, a, r, n, e, s) := v in Mnemonic32.i_vpminsd_xxo (r 0) (r 1) (o 2))
     (fun v => let (o, a, r, n, e, s) := v in Mnemonic.i_vpminsd_xxo (r 0) (r 1) (widen_op (o 2)));
   mkB "vpminsw_xxo" (fun v => let (o, a, r, n, e, s) := v in Mnemonic32.i_vpminsw_xxo (r 0) (r 1) (o 2))
     (fun v => let (o, a, r, n, e, s) := v in Mnemonic.i_vpminsw_xxo (r 0) (r 1) (widen_op (o 2)));
   mkB "vpminub_xxo" (fun v => let (o, a, r, n, e, s) := v in Mnemonic32.i_vpminub_xxo (r 0) (r 1) (o 2))
     (fun v => let (o, a, r, n, e, s) := v in Mnemonic.i_vpminub_xxo (r 0) (r 1) (widen_op (o 2)))].
Lemma sims45_ok : Forall same sims45.
Proof. unfold sims45.
row. { unfold Mnemonic32.i_vphaddw_xxo, Mnemonic.i_vphaddw_xxo. row_sim. }
row. { unfold Mnemonic32.i_vphminposuw, Mnemonic.i_vphminposuw. row_sim. }
row. { unfold Mnemonic32.i_vphsubd_xxo, Mnemonic.i_vphsubd_xxo. row_sim. }
row. { unfold Mnemonic32.i_vphsubsw_xxo, Mnemonic.i_vphsubsw_xxo. row_sim. }
row. { unfold Mnemonic32.i_vphsubw_xxo, Mnemonic.i_vphsubw_xxo. row_sim. }
row. { unfold Mnemonic32.i_vpinsrb_xxoi, Mnemonic.i_vpinsrb_xxoi. row_sim. }
row. { unfold Mnemonic32.i_vpinsrd_xxoi, Mnemonic.i_vpinsrd_xxoi. row_sim. }
row. { unfold Mnemonic32.i_vpinsrq_xxoi, Mnemonic.i_vpinsrq_xxoi. row_sim. }
row. { unfold Mnemonic32.i_vpinsrw_xxoi, Mnemonic.i_vpinsrw_xxoi. row_sim. }
row. { unfold Mnemonic32.i_vpmaddubsw_xxo, Mnemonic.i_vpmaddubsw_xxo. row_sim. }
row. { unfold Mnemonic32.i_vpmaddwd_xxo, Mnemonic.i_vpmaddwd_xxo. row_sim. }
row. { unfold Mnemonic32.i_vpmaskmovd_axx, Mnemonic.i_vpmaskmovd_axx. row_sim. }
row. { unfold Mnemonic32.i_vpmaskmovd_xxa, Mnemonic.i_vpmaskmovd_xxa. row_sim. }
row. { unfold Mnemonic32.i_vpmaskmovq_axx, Mnemonic.i_vpmaskmovq_axx. row_sim. }
row. { unfold Mnemonic32.i_vpmaskmovq_xxa, Mnemonic.i_vpmaskmovq_xxa. row_sim. }
row. { unfold Mnemonic32.i_vpmaxsb_xxo, Mnemonic.i_vpmaxsb_xxo. row_sim. }
row. { unfold Mnemonic32.i_vpmaxsd_xxo, Mnemonic.i_vpmaxsd_xxo. row_sim. }
row. { unfold Mnemonic32.i_vpmaxsw_xxo, Mnemonic.i_vpmaxsw_xxo. row_sim. }
row. { unfold Mnemonic32.i_vpmaxub_xxo, Mnemonic.i_vpmaxub_xxo. row_sim. }
row. { unfold Mnemonic32.i_vpmaxud_xxo, Mnemonic.i_vpmaxud_xxo. row_sim. }
row. { unfold Mnemonic32.i_vpmaxuw_xxo, Mnemonic.i_vpmaxuw_xxo. row_sim. }
row. { unfold Mnemonic32.i_vpminsb_xxo, Mnemonic.i_vpminsb_xxo. row_sim. }
row. { unfold Mnemonic32.i_vpminsd_xxo, Mnemonic.i_vpminsd_xxo. row_sim. }
row. { unfold Mnemonic32.i_vpminsw_xxo, Mnemonic.i_vpminsw_xxo. row_sim. }
row. { unfold Mnemonic32.i_vpminub_xxo, Mnemonic.i_vpminub_xxo. row_sim. }
apply Forall_nil. Qed.
Definition sims46 : list b_entry :=
  [mkB "vpminud_xxo" (fun v => let (o, a, r, n, e, s) := v in Mnemonic32.i_vpminud_xxo (r 0) (r 1) (o 2))
     (fun v => let (o, a, r, n, e, s) := v in Mnemonic.i_vpminud_xxo (r 0) (r 1) (widen_op (o 2)));
   mkB "vpminuw_xxo" (fun v => let (o, a, r, n, e, s) := v in Mnemonic32.i_vpminuw_xxo (r 0) (r 1) (o 2))
     (fun v => let (o, a, r, n, e, s) := v in Mnemonic.i_vpminuw_xxo (r 0) (r 1) (widen_op (o 2)));
   mkB "vpmovmskb" (fun v => let (o, a, r, n, e, s) := v in Mnemonic32.i_vpmovmskb (r 0) (r 1))
     (fun v => let (o, a, r, n, e, s) := v in Mnemonic.i_vpmovmskb (r 0) (r 1));
   mkB "vpmovsxbd" (fun v => let (o, a, r, n, e, s) := v in Mnemonic32.i_vpmovsxbd (r 0) (o 1))
     (fun v => let (o, a, r, n, e, s) := v in Mnemonic.i_vpmovsxbd (r 0) (widen_op (o 1)));
   mkB "vpmovsxbq" (fun v => let (o, a, r, n, e, s) := v in Mnemonic32.i_vpmovsxbq (r 0) (o 1))
     (fun v => let (o, a, r, n, e, s) := v in Mnemonic.i_vpmovsxbq (r 0) (widen_op (o 1)));
   mkB "vpmovsxbw" (fun v => let (o, a, r, n, e, s) := v in Mnemonic32.i_vpmovsxbw (r 0) (o 1))
     (fun v => let (o, a, r, n, e, s) := v in Mnemonic.i_vpmovsxbw (r 0) (widen_op (o 1)));
   mkB "vpmovsxdq" (fun v => let (o, a, r, n, e, s) := v in Mnemonic32.i_vpmovsxdq (r 0) (o 1))
     (fun v => let (o, a, r, n, e, s) := v in Mnemonic.i_vpmovsxdq (r 0) (widen_op (o 1)));
   mkB "vpmovsxwd" (fun v => let (o, a, r, n, e, s) := v in Mnemonic32.i_vpmovsxwd (r 0) (o 1))
     (fun v => let (o, a, r, n, e, s) := v in Mnemonic.i_vpmovsxwd (r 0) (widen_op (o 1)));
   mkB "vpmovsxwq" (fun v => let (o, a, r, n, e, s) := v in Mnemonic32.i_vpmovsxwq (r 0) (o 1))
     (fun v => let (o, a, r, n, e, s) := v in Mnemonic.i_vpmovsxwq (r 0) (widen_op (o 1)));
   mkB "vpmovzxbd" (fun v => let (o, a, r, n, e, s) := v in Mnemonic32.i_vpmovzxbd (r 0) (o 1))
     (fun v => let (o, a, r, n, e, s) := v in Mnemonic.i_vpmovzxbd (r 0) (widen_op (o 1)));
   mkB "vpmovzxbq" (fun v => let (o, a, r, n, e, s) := v in Mnemonic32.i_vpmovzxbq (r 0) (o 1))
     (fun v => let (o, a, r, n, e, s) := v in Mnemonic.i_vpmovzxbq (r 0) (widen_op (o 1)));
   mkB "vpmovzxbw" (fun v => let (o, a, r, n, e, s) := v in Mnemonic32.i_vpmovzxbw (r 0) (o 1))
     (fun v => let (o, a, r, n, e, s) := v in Mnemonic.i_vpmovzxbw (r 0) (widen_op (o 1)));
   mkB "vpmovzxdq" (fun v => let (o, a, r, n, e, s) := v in Mnemonic32.i_vpmovzxdq (r 0) (o 1))
     (fun v => let (o, a, r, n, e, s) := v in Mnemonic.i_vpmovzxdq (r 0) (widen_op (o 1)));
   mkB "vpmovzxwd" (fun v => let (o, a, r, n, e, s) := v in Mnemonic32.i_vpmovzxwd (r 0) (o 1))
     (fun v => let (o, a, r, n, e, s) := v in Mnemonic.i_vpmovzxwd (r 0) (widen_op (o 1)));
   mkB "vpmovzxwq" (fun v => let (o, a, r, n, e, s) := v in Mnemonic32.i_vpmovzxwq (r 0) (o 1))
     (fun v => let (o, a, r, n, e, s) := v in Mnemonic.i_vpmovzxwq (r 0) (widen_op (o 1)));
   mkB "vpmuldq_xxo" (fun v => let (o, a, r, n, e, s) := v in Mnemonic32.i_vpmuldq_xxo (r 0) (r 1) (o 2))
     (fun v => let (o, a, r, n, e, s) := v in Mnemonic.i_vpmuldq_xxo (r 0) (r 1) (widen_op (o 2)));
   mkB "vpmulhrsw_xxo" (fun v => let (o, a, r, n, e, s) := v in Mnemonic32.i_vpmulhrsw_xxo (r 0) (r 1) (o 2))
     (fun v => let (o, a, r, n, e, s) := v in Mnemonic.i_vpmulhrsw_xxo (r 0) (r 1) (widen_op (o 2)));
   mkB "vpmulhuw_xxo" (fun v => let (o, a, r, n, e, s) := v in Mnemonic32.i_vpmulhuw_xxo (r 0) (r 1) (o 2))
     (fun v => let (o, a, r, n, e, s) := v in Mnemonic.i_vpmulhuw_xxo (r 0) (r 1) (widen_op (o 2)));
   mkB "vpmulhw_xxo" (fun v => let (o, a, r, n, e, s) := v in Mnemonic32.i_vpmulhw_xxo (r 0) (r 1) (o 2))
     (fun v => let (o, a, r, n, e, s) := v in Mnemonic.i_vpmulhw_xxo (r 0) (r 1) (widen_op (o 2)));
   mkB "vpmulld_xxo" (fun v => let (o, a, r, n, e, s) := v in Mnemonic32.i_vpmulld_xxo (r 0) (r 1) (o 2))
     (fun v => let (o, a, r, n, e, s) := v in Mnemonic.i_vpmulld_xxo (r 0) (r 1) (widen_op (o 2)));
   mkB "vpmullw_xxo" (fun v => let (o, a, r, n, e, s) := v in Mnemonic32.i_vpmullw_xxo (r 0) (r 1) (o 2))
     (fun v => let (o, a, r, n, e, s) := v in Mnemonic.i_vpmullw_xxo (r 0) (r 1) (widen_op (o 2)));
   mkB "vpmuludq_xxo" (fun v => let (o, a, r, n, e, s) := v in Mnemonic32.i_vpmuludq_xxo (r 0) (r 1) (o 2))
     (fun v => let (o, a, r, n, e, s) := v in Mnemonic.i_vpmuludq_xxo (r 0) (r 1) (widen_op (o 2)));
   mkB "vpor_xxo" (fun v => let (o, a, r, n, e, s) := v in Mnemonic32.i_vpor_xxo (r 0) (r 1) (o 2))
     (fun v => let (o, a, r, n, e, s) := v in Mnemonic.i_vpor_xxo (r 0) (r 1) (widen_op (o 2)));
   mkB "vpsadbw_xxo" (fun v => let (o, a, r, n, e, s) := v in Mnemonic32.i_vpsadbw_xxo (r 0) (r 1) (o 2))
     (fun v => let (o, a, r, n, e, s) := v in Mnemonic.i_vpsadbw_xxo (r 0) (r 1) (widen_op (o 2)));
   mkB "vpshufb" (fun v => let (o, a, r, n, e, s) := v in Mnemonic32.i_vpshufb (r 0) (r 1) (o 2))
     (fun v => let (o, a, r, n, e, s) := v in Mnemonic.i_vpshufb (r 0) (r 1) (widen_op (o 2)))].
Lemma sims46_ok : Forall same sims46.
Proof. unfold sims46.
row. { unfold Mnemonic32.i_vpminud_xxo, Mnemonic.i_vpminud_xxo. row_sim. }
row. { unfold Mnemonic32.i_vpminuw_xxo, Mnemonic.i_vpminuw_xxo. row_sim. }
row. { unfold Mnemonic32.i_vpmovmskb, Mnemonic.i_vpmovmskb. row_sim. }
row. { unfold Mnemonic32.i_vpmovsxbd, Mnemonic.i_vpmovsxbd. row_sim. }
row. { unfold Mnemonic32.i_vpmovsxbq, Mnemonic.i_vpmovsxbq. row_sim. }
row. { unfold Mnemonic32.i_vpmovsxbw, Mnemonic.i_vpmovsxbw. row_sim. }
row. { unfold Mnemonic32.i_vpmovsxdq, Mnemonic.i_vpmovsxdq. row_sim. }
row. { unfold Mnemonic32.i_vpmovsxwd, Mnemonic.i_vpmovsxwd. row_sim. }
row. { unfold Mnemonic32.i_vpmovsxwq, Mnemonic.i_vpmovsxwq. row_sim. }
row. { unfold Mnemonic32.i_vpmovzxbd, Mnemonic.i_vpmovzxbd. row_sim. }
row. { unfold Mnemonic32.i_vpmovzxbq, Mnemonic.i_vpmovzxbq. row_sim. }
row. { unfold Mnemonic32.i_vpmovzxbw, Mnemonic.i_vpmovzxbw. row_sim. }
row. { unfold Mnemonic32.i_vpmovzxdq, Mnemonic.i_vpmovzxdq. row_sim. }
row. { unfold Mnemonic32.i_vpmovzxwd, Mnemonic.i_vpmovzxwd. row_sim. }
row. { unfold Mnemonic32.i_vpmovzxwq, Mnemonic.i_vpmovzxwq. row_sim. }
row. { unfold Mnemonic32.i_vpmuldq_xxo, Mnemonic.i_vpmuldq_xxo. row_sim. }
row. { unfold Mnemonic32.i_vpmulhrsw_xxo, Mnemonic.i_vpmulhrsw_xxo. row_sim. }
row. { unfold Mnemonic32.i_vpmulhuw_xxo, Mnemonic.i_vpmulhuw_xxo. row_sim. }
row. { unfold Mnemonic32.i_vpmulhw_xxo, Mnemonic.i_vpmulhw_xxo. row_sim. }
row. { unfold Mnemonic32.i_vpmulld_xxo, Mnemonic.i_vpmulld_xxo. row_sim. }
row. { unfold Mnemonic32.i_vpmullw_xxo, Mnemonic.i_vpmullw_xxo. row_sim. }
row. { unfold Mnemonic32.i_vpmuludq_xxo, Mnemonic.i_vpmuludq_xxo. row_sim. }
row. { unfold Mnemonic32.i_vpor_xxo, Mnemonic.i_vpor_xxo. row_sim. }
row. { unfold Mnemonic32.i_vpsadbw_xxo, Mnemonic.i_vpsadbw_xxo. row_sim. }
row. { unfold Mnemonic32.i_vpshufb, Mnemonic.i_vpshufb. row_sim. }
apply Forall_nil. Qed.
Definition sims47 : list b_entry :=
  [mkB "vpshufd" (fun v => let (o, a, r, n, e, s) := v in Mnemonic32.i_vpshufd (r 0) (o 1) (n 2))
     (fun v => let (o, a, r, n, e, s) := v in Mnemonic.i_vpshufd (r 0) (widen_op (o 1)) (n 2));
   mkB "vpshufhw" (fun v => let (o, a, r, n, e, s) := v in Mnemonic32.i_vpshufhw (r 0) (o 1) (n 2))
     (fun v => let (o, a, r, n, e, s) := v in Mnemonic.i_vpshufhw (r 0) (widen_op (o 1)) (n 2));
   mkB "vpshuflw" (fun v => let (o, a, r, n, e, s) := v in Mnemonic32.i_vpshuflw (r 0) (o 1) (n 2))
     (fun v => let (o, a, r, n, e, s) := v in Mnemonic.i_vpshuflw (r 0) (widen_op (o 1)) (n 2));
   mkB "vpsignb_xxo" (fun v => let (o, a, r, n, e, s) := v in Mnemonic32.i_vpsignb_xxo (r 0) (r 1) (o 2))
     (fun v => let (o, a, r, n, e, s) := v in Mnemonic.i_vpsignb_xxo (r 0) (r 1) (widen_op (o 2)));
   mkB "vpsignd_xxo" (fun v => let (o, a, r, n, e, s) := v in Mnemonic32.i_vpsignd_xxo (r 0) (r 1) (o 2))
     (fun v => let (o, a, r, n, e, s) := v in Mnemonic.i_vpsignd_xxo (r 0) (r 1) (widen_op (o 2)));
   mkB "vpsignw_xxo" (fun v => let (o, a, r, n, e, s) := v in Mnemonic32.i_vpsignw_xxo (r 0) (r 1) (o 2))
     (fun v => let (o, a, r, n, e, s) := v in Mnemonic.i_vpsignw_xxo (r 0) (r 1) (widen_op (o 2)));
   mkB "vpslld_xoi" (fun v => let (o, a, r, n, e, s) := v in Mnemonic32.i_vpslld_xoi (r 0) (o 1) (n 2))
     (fun v => let (o, a, r, n, e, s) := v in Mnemonic.i_vpslld_xoi (r 0) (widen_op (o 1)) (n 2));
   mkB "vpslld_xxo" (fun v => let (o, a, r, n, e, s) := v in Mnemonic32.i_vpslld_xxo (r 0) (r 1) (o 2))
     (fun v => let (o, a, r, n, e, s) := v in Mnemonic.i_vpslld_xxo (r 0) (r 1) (widen_op (o 2)));
   mkB "vpslldq_xoi" (fun v => let (o, a, r, n, e, s) := v in Mnemonic32.i_vpslldq_xoi (r 0) (o 1) (n 2))
     (fun v => let (o, a, r, n, e, s) := v in Mnemonic.i_vpslldq_xoi (r 0) (widen_op (o 1)) (n 2));
   mkB "vpsllq_xoi" (fun v => let (o, a, r, n, e, s) := v in Mnemonic32.i_vpsllq_xoi (r 0) (o 1) (n 2))
     (fun v => let (o, a, r, n, e, s) := v in Mnemonic.i_vpsllq_xoi (r 0) (widen_op (o 1)) (n 2));
   mkB "vpsllq_xxo" (fun v => let (o, a, r, n, e, s) := v in Mnemonic32.i_vpsllq_xxo (r 0) (r 1) (o 2))
     (fun v => let (o, a, r, n, e, s) := v in Mnemonic.i_vpsllq_xxo (r 0) (r 1) (widen_op (o 2)));
   mkB "vpsllvd" (fun v => let (o, a, r, n, e, s) := v in Mnemonic32.i_vpsllvd (r 0) (r 1) (o 2))
     (fun v => let (o, a, r, n, e, s) := v in Mnemonic.i_vpsllvd (r 0) (r 1) (widen_op (o 2)));
   mkB "vpsllvq" (fun v => let (o, a, r, n, e, s) := v in Mnemonic32.i_vpsllvq (r 0) (r 1) (o 2))
     (fun v => let (o, a, r, n, e, s) := v in Mnemonic.i_vpsllvq (r 0) (r 1) (widen_op (o 2)));
   mkB "vpsllw_xoi" (fun v => let (o, a, r, n, e, s) := v in Mnemonic32.i_vpsllw_xoi (r 0) (o 1) (n 2))
     (fun v => let (o, a, r, n, e, s) := v in Mnemonic.i_vpsllw_xoi (r 0) (widen_op (o 1)) (n 2));
   mkB "vpsllw_xxo" (fun v => let (o, a, r, n, e, s) := v in Mnemonic32.i_vpsllw_xxo (r 0) (r 1) (o 2))
     (fun v => let (o, a, r, n, e, s) := v in Mnemonic.i_vpsllw_xxo (r 0) (r 1) (widen_op (o 2)));
   mkB "vpsrad_xoi" (fun v => let (o, a, r, n, e, s) := v in Mnemonic32.i_vpsrad_xoi (r 0) (o 1) (n 2))
     (fun v => let (o, a, r, n, e, s) := v in Mnemonic.i_vpsrad_xoi (r 0) (widen_op (o 1)) (n 2));
   mkB "vpsrad_xxo" (fun v => let (o, a, r, n, e, s) := v in Mnemonic32.i_vpsrad_xxo (r 0) (r 1) (o 2))
     (fun v => let (o, a, r, n, e, s) := v in Mnemonic.i_vpsrad_xxo (r 0) (r 1) (widen_op (o 2)));
   mkB "vpsravd" (fun v => let (o, a, r, n, e, s) := v in Mnemonic32.i_vpsravd (r 0) (r 1) (o 2))
     (fun v => let (o, a, r, n, e, s) := v in Mnemonic.i_vpsravd (r 0) (r 1) (widen_op (o 2)));
   mkB "vpsraw_xoi" (fun v => let (o, a, r, n, e, s) := v in Mnemonic32.i_vpsraw_xoi (r 0) (o 1) (n 2))
     (fun v => let (o, a, r, n, e, s) := v in Mnemonic.i_vpsraw_xoi (r 0) (widen_op (o 1)) (n 2));
   mkB "vpsraw_xxo" (fun v => let (o, a, r, n, e, s) := v in Mnemonic32.i_vpsraw_xxo (r 0) (r 1) (o 2))
     (fun v => let (o, a, r, n, e, s) := v in Mnemonic.i_vpsraw_xxo (r 0) (r 1) (widen_op (o 2)));
   mkB "vpsrld_xoi" (fun v => let (o, a, r, n, e, s) := v in Mnemonic32.i_vpsrld_xoi (r 0) (o 1) (n 2))
     (fun v => let (o, a, r, n, e, s) := v in Mnemonic.i_vpsrld_xoi (r 0) (widen_op (o 1)) (n 2));
   mkB "vpsrld_xxo" (fun v => let (o, a, r, n, e, s) := v in Mnemonic32.i_vpsrld_xxo (r 0) (r 1) (o 2))
     (fun v => let (o, a, r, n, e, s) := v in Mnemonic.i_vpsrld_xxo (r 0) (r 1) (widen_op (o 2)));
   mkB "vpsrldq_xoi" (fun v => let (o, a, r, n, e, s) := v in Mnemonic32.i_vpsrldq_xoi (r 0) (o 1) (n 2))
     (fun v => let (o, a, r, n, e, s) := v in Mnemonic.i_vpsrldq_xoi (r 0) (widen_op (o 1)) (n 2));
   mkB "vpsrlq_xoi" (fun v => let (o, a, r, n, e, s) := v in Mnemonic32.i_vpsrlq_xoi (r 0) (o 1) (n 2))
     (fun v => let (o, a, r, n, e, s) := v in Mnemonic.i_vpsrlq_xoi (r 0) (widen_op (o 1)) (n 2));
   mkB "vpsrlq_xxo" (fun v => let (o, a, r, n, e, s) := v in Mnemonic32.i_vpsrlq_xxo (r 0) (r 1) (o 2))
     (fun v => let (o, a, r, n, e, s) := v in Mnemonic.i_vpsrlq_xxo (r 0) (r 1) (widen_op (o 2)))].
Lemma sims47_ok : Forall same sims47.
Proof. unfold sims47.
row. { unfold Mnemonic32.i_vpshufd, Mnemonic.i_vpshufd. row_sim. }
row. { unfold Mnemonic32.i_vpshufhw, Mnemonic.i_vpshufhw. row_sim. }
row. { unfold Mnemonic32.i_vpshuflw, Mnemonic.i_vpshuflw. row_sim. }
row. { unfold Mnemonic32.i_vpsignb_xxo, Mnemonic.i_vpsignb_xxo. row_sim. }
row. { unfold Mnemonic32.i_vpsignd_xxo, Mnemonic.i_vpsignd_xxo. row_sim. }
row. { unfold Mnemonic32.i_vpsignw_xxo, Mnemonic.i_vpsignw_xxo. row_sim. }
row. { unfold Mnemonic32.i_vpslld_xoi, Mnemonic.i_vpslld_xoi. row_sim. }
row. { unfold Mnemonic32.i_vpslld_xxo, Mnemonic.i_vpslld_xxo. row_sim. }
row. { unfold Mnemonic32.i_vpslldq_xoi, Mnemonic.i_vpslldq_xoi. row_sim. }
row. { unfold Mnemonic32.i_vpsllq_xoi, Mnemonic.i_vpsllq_xoi. row_sim. }
row. { unfold Mnemonic32.i_vpsllq_xxo, Mnemonic.i_vpsllq_xxo. row_sim. }
row. { unfold Mnemonic32.i_vpsllvd, Mnemonic.i_vpsllvd. row_sim. }
row. { unfold Mnemonic32.i_vpsllvq, Mnemonic.i_vpsllvq. row_sim. }
row. { unfold Mnemonic32.i_vpsllw_xoi, Mnemonic.i_vpsllw_xoi. row_sim. }
row. { unfold Mnemonic32.i_vpsllw_xxo, Mnemonic.i_vpsllw_xxo. row_sim. }
row. { unfold Mnemonic32.i_vpsrad_xoi, Mnemonic.i_vpsrad_xoi. row_sim. }
row. { unfold Mnemonic32.i_vpsrad_xxo, Mnemonic.i_vpsrad_xxo. row_sim. }
row. { unfold Mnemonic32.i_vpsravd, Mnemonic.i_vpsravd. row_sim. }
row. { unfold Mnemonic32.i_vpsraw_xoi, Mnemonic.i_vpsraw_xoi. row_sim. }
row. { unfold Mnemonic32.i_vpsraw_xxo, Mnemonic.i_vpsraw_xxo. row_sim. }
row. { unfold Mnemonic32.i_vpsrld_xoi, Mnemonic.i_vpsrld_xoi. row_sim. }
row. { unfold Mnemonic32.i_vpsrld_xxo, Mnemonic.i_vpsrld_xxo. row_sim. }
row. { unfold Mnemonic32.i_vpsrldq_xoi, Mnemonic.i_vpsrldq_xoi. row_sim. }
row. { unfold Mnemonic32.i_vpsrlq_xoi, Mnemonic.i_vpsrlq_xoi. row_sim. }
row. { unfold Mnemonic32.i_vpsrlq_xxo, Mnemonic.i_vpsrlq_xxo. row_sim. }
apply Forall_nil. Qed.
Definition sims48 : list b_entry :=
  [mkB "vpsrlvd" (fun v => let (o, a, r, n, e, s) := v in Mnemonic32.i_vpsrlvd (r 0) (r 1) (o 2))
     (fun v => let (o, a, r, n, e, s) := v in Mnemonic.i_vpsrlvd (r 0) (r 1) (widen_op (o 2)));
   mkB "vpsrlvq" (fun v => let (o, a, r, n, e, s) := v in Mnemonic32.i_vpsrlvq (r 0) (r 1) (o 2))
     (fun v => let (o, a, r, n, e, s) := v in Mnemonic.i_vpsrlvq (r 0) (r 1) (widen_op (o 2)));
   mkB "vpsrlw_xoi" (fun v => let (o, a, r, n, e, s) := v in Mnemonic32.i_vpsrlw_xoi (r 0) (o 1) (n 2))
     (fun v => let (o, a, r, n, e, s) := v in Mnemonic.i_vpsrlw_xoi (r 0) (widen_op (o 1)) (n 2));
   mkB "vpsrlw_xxo" (fun v => let (o, a, r, n, e, s) := v in Mnemonic32.i_vpsrlw_xxo (r 0) (r 1) (o 2))
     (fun v => let (o, a, r, n, e, s) := v in Mnemonic.i_vpsrlw_xxo (r 0) (r 1) (widen_op (o 2)));
   mkB "vpsubb_xxo" (fun v => let (o, a, r, n, e, s) := v in Mnemonic32.i_vpsubb_xxo (r 0) (r 1) (o 2))
     (fun v => let (o, a, r, n, e, s) := v in Mnemonic.i_vpsubb_xxo (r 0) (r 1) (widen_op (o 2)));
   mkB "vpsubd_xxo" (fun v => let (o, a, r, n, e, s) := v in Mnemonic32.i_vpsubd_xxo (r 0) (r 1) (o 2))
     (fun v => let (o, a, r, n, e, s) := v in Mnemonic.i_vpsubd_xxo (r 0) (r 1) (widen_op (o 2)));
   mkB "vpsubq_xxo" (fun v => let (o, a, r, n, e, s) := v in Mnemonic32.i_vpsubq_xxo (r 0) (r 1) (o 2))
     (fun v => let (o, a, r, n, e, s) := v in Mnemonic.i_vpsubq_xxo (r 0) (r 1) (widen_op (o 2)));
   mkB "vpsubsb_xxo" (fun v => let (o, a, r, n, e, s) := v in Mnemonic32.i_vpsubsb_xxo (r 0) (r 1) (o 2))
     (fun v => let (o, a, r, n, e, s) := v in Mnemonic.i_vpsubsb_xxo (r 0) (r 1) (widen_op (o 2)));
   mkB "vpsubsw_xxo" (fun v => let (o, a, r, n, e, s) := v in Mnemonic32.i_vpsubsw_xxo (r 0) (r 1) (o 2))
     (fun v => let (o, a, r, n, e, s) := v in Mnemonic.i_vpsubsw_xxo (r 0) (r 1) (widen_op (o 2)));
   mkB "vpsubusb_xxo" (fun v => let (o, a, r, n, e, s) := v in Mnemonic32.i_vpsubusb_xxo (r 0) (r 1) (o 2))
     (fun v => let (o, a, r, n, e, s) := v in Mnemonic.i_vpsubusb_xxo (r 0) (r 1) (widen_op (o 2)));
   mkB "vpsubusw_xxo" (fun v => let (o, a, r, n, e, s) := v in Mnemonic32.i_vpsubusw_xxo (r 0) (r 1) (o 2))
     (fun v => let (o, a, r, n, e, s) := v in Mnemonic.i_vpsubusw_xxo (r 0) (r 1) (widen_op (o 2)));
   mkB "vpsubw_xxo" (fun v => let (o, a, r, n, e, s) := v in Mnemonic32.i_vpsubw_xxo (r 0) (r 1) (o 2))
     (fun v => let (o, a, r, n, e, s) := v in Mnemonic.i_vpsubw_xxo (r 0) (r 1) (widen_op (o 2)));
   mkB "vptest" (fun v => let (o, a, r, n, e, s) := v in Mnemonic32.i_vptest (r 0) (o 1))
     (fun v => let (o, a, r, n, e, s) := v in Mnemonic.i_vptest (r 0) (widen_op (o 1)));
   mkB "vpunpckhbw_xxo" (fun v => let (o, a, r, n, e, s) := v in Mnemonic32.i_vpunpckhbw_xxo (r 0) (r 1) (o 2))
     (fun v => let (o, a, r, n, e, s) := v in Mnemonic.i_vpunpckhbw_xxo (r 0) (r 1) (widen_op (o 2)));
   mkB "vpunpckhdq_xxo" (fun v => let (o, a, r, n, e, s) := v in Mnemonic32.i_vpunpckhdq_xxo (r 0) (r 1) (o 2))
     (fun v => let (o, a, r, n, e, s) := v in Mnemonic.i_vpunpckhdq_xxo (r 0) (r 1) (widen_op (o 2)));
   mkB "vpunpckhqdq_xxo" (fun v => let (o, a, r, n, e, s) := v in Mnemonic32.i_vpunpckhqdq_xxo (r 0) (r 1) (o 2))
     (fun v => let (o, a, r, n, e, s) := v in Mnemonic.i_vpunpckhqdq_xxo (r 0) (r 1) (widen_op (o 2)));
   mkB "vpunpckhwd_xxo" (fun v => let (o, a, r, n, e, s) := v in Mnemonic32.i_vpunpckhwd_xxo (r 0) (r 1) (o 2))
     (fun v => let (o, a, r, n, e, s) := v in Mnemonic.i_vpunpckhwd_xxo (r 0) (r 1) (widen_op (o 2)));
   mkB "vpunpcklbw_xxo" (fun v => let (o, a, r, n, e, s) := v in Mnemonic32.i_vpunpcklbw_xxo (r 0) (r 1) (o 2))
     (fun v => let (o, a, r, n, e, s) := v in Mnemonic.i_vpunpcklbw_xxo (r 0) (r 1) (widen_op (o 2)));
   mkB "vpunpckldq_xxo" (fun v => let (o, a, r, n, e, s) := v in Mnemonic32.i_vpunpckldq_xxo (r 0) (r 1) (o 2))
     (fun v => let (o, a, r, n, e, s) := v in Mnemonic.i_vpunpckldq_xxo (r 0) (r 1) (widen_op (o 2)));
   mkB "vpunpcklqdq_xxo" (fun v => let (o, a, r, n, e, s) := v in Mnemonic32.i_vpunpcklqdq_xxo (r 0) (r 1) (o 2))
     (fun v => let (o, a, r, n, e, s) := v in Mnemonic.i_vpunpcklqdq_xxo (r 0) (r 1) (widen_op (o 2)));
   mkB "vpunpcklwd_xxo" (fun v => let (o, a, r, n, e, s) := v in Mnemonic32.i_vpunpcklwd_xxo (r 0) (r 1) (o 2))
     (fun v => let (o, a, r, n, e, s) := v in Mnemonic.i_vpunpcklwd_xxo (r 0) (r 1) (widen_op (o 2)));
   mkB "vpxor_xxo" (fun v => let (o, a, r, n, e, s) := v in Mnemonic32.i_vpxor_xxo (r 0) (r 1) (o 2))
     (fun v => let (o, a, r, n, e, s) := v in Mnemonic.i_vpxor_xxo (r 0) (r 1) (widen_op (o 2)));
   mkB "vrcpps" (fun v => let (o, a, r, n, e, s) := v in Mnemonic32.i_vrcpps (r 0) (o 1))
     (fun v => let (o, a, r, n, e, s) := v in Mnemonic.i_vrcpps (r 0) (widen_op (o 1)));
   mkB "vrcpss_xxo" (fun v => let (o, a, r, n, e, s) := v in Mnemonic32.i_vrcpss_xxo (r 0) (r 1) (o 2))
     (fun v => let (o, a, r, n, e, s) := v in Mnemonic.i_vrcpss_xxo (r 0) (r 1) (widen_op (o 2)));
   mkB "vroundpd" (fun v => let (o, a, r, n, e, s) := v in Mnemonic32.i_vroundpd (r 0) (o 1) (n 2))
     (fun v => let (o, a, r, n, e, s) := v in Mnemonic.i_vroundpd (r 0) (widen_op (o 1)) (n 2))].
Lemma sims48_ok : Forall same sims48.
Proof. unfold sims48.
row. { unfold Mnemonic32.i_vpsrlvd, Mnemonic.i_vpsrlvd. row_sim. }
row. { unfold Mnemonic32.i_vpsrlvq, Mnemonic.i_vpsrlvq. row_sim. }
row. { unfold Mnemonic32.i_vpsrlw_xoi, Mnemonic.i_vpsrlw_xoi. row_sim. }
row. { unfold Mnemonic32.i_vpsrlw_xxo, Mnemonic.i_vpsrlw_xxo. row_sim. }
row. { unfold Mnemonic32.i_vpsubb_xxo, Mnemonic.i_vpsubb_xxo. row_sim. }
row. { unfold Mnemonic32.i_vpsubd_xxo, Mnemonic.i_vpsubd_xxo. row_sim. }
row. { unfold Mnemonic32.i_vpsubq_xxo, Mnemonic.i_vpsubq_xxo. row_sim. }
row. { unfold Mnemonic32.i_vpsubsb_xxo, Mnemonic.i_vpsubsb_xxo. row_sim. }
row. { unfold Mnemonic32.i_vpsubsw_xxo, Mnemonic.i_vpsubsw_xxo. row_sim. }
row. { unfold Mnemonic32.i_vpsubusb_xxo, Mnemonic.i_vpsubusb_xxo. row_sim. }
row. { unfold Mnemonic32.i_vpsubusw_xxo, Mnemonic.i_vpsubusw_xxo. row_sim. }
row. { unfold Mnemonic32.i_vpsubw_xxo, Mnemonic.i_vpsubw_xxo. row_sim. }
row. { unfold Mnemonic32.i_vptest, Mnemonic.i_vptest. row_sim. }
row. { unfold Mnemonic32.i_vpunpckhbw_xxo, Mnemonic.i_vpunpckhbw_xxo. row_sim. }
row. { unfold Mnemonic32.i_vpunpckhdq_xxo, Mnemonic.i_vpunpckhdq_xxo. row_sim. }
row. { unfold Mnemonic32.i_vpunpckhqdq_xxo, Mnemonic.i_vpunpckhqdq_xxo. row_sim. }
row. { unfold Mnemonic32.i_vpunpckhwd_xxo, Mnemonic.i_vpunpckhwd_xxo. row_sim. }
row. { unfold Mnemonic32.i_vpunpcklbw_xxo, Mnemonic.i_vpunpcklbw_xxo. row_sim. }
row. { unfold Mnemonic32.i_vpunpckldq_xxo, Mnemonic.i_vpunpckldq_xxo. row_sim. }
row. { unfold Mnemonic32.i_vpunpcklqdq_xxo, Mnemonic.i_vpunpcklqdq_xxo. row_sim. }
row. { unfold Mnemonic32.i_vpunpcklwd_xxo, Mnemonic.i_vpunpcklwd_xxo. row_sim. }
row. { unfold Mnemonic32.i_vpxor_xxo, Mnemonic.i_vpxor_xxo. row_sim. }
row. { unfold Mnemonic32.i_vrcpps, Mnemonic.i_vrcpps. row_sim. }
row. { unfold Mnemonic32.i_vrcpss_xxo, Mnemonic.i_vrcpss_xxo. row_sim. }
row. { unfold Mnemonic32.i_vroundpd, Mnemonic.i_vroundpd. row_sim. }
apply Forall_nil. Qed.
Definition sims49 : list b_entry :=
  [mkB "vroundps" (fun v => let (o, a, r, n, e, s) := v in Mnemonic32.i_vroundps (r 0) (o 1) (n 2))
     (fun v => let (o, a, r, n, e, s) := v in Mnemonic.i_vroundps (r 0) (widen_op (o 1)) (n 2));
   mkB "vroundsd_xxoi" (fun v => let (o, a, r, n, e, s) := v in Mnemonic32.i_vroundsd_xxoi (r 0) (r 1) (o 2) (n 3))
     (fun v => let (o, a, r, n, e, s) := v in Mnemonic.i_vroundsd_xxoi (r 0) (r 1) (widen_op (o 2)) (n 3));
   mkB "vroundss_xxoi" (fun v => let (o, a, r, n, e, s) := v in Mnemonic32.i_vroundss_xxoi (r 0) (r 1) (o 2) (n 3))
     (fun v => let (o, a, r, n, e, s) := v in Mnemonic.i_vroundss_xxoi (r 0) (r 1) (widen_op (o 2)) (n 3));
   mkB "vrsqrtps" (fun v => let (o, a, r, n, e, s) := v in Mnemonic32.i_vrsqrtps (r 0) (o 1))
     (fun v => let (o, a, r, n, e, s) := v in Mnemonic.i_vrsqrtps (r 0) (widen_op (o 1)));
   mkB "vrsqrtss_xxo" (fun v => let (o, a, r, n, e, s) := v in Mnemonic32.i_vrsqrtss_xxo (r 0) (r 1) (o 2))
     (fun v => let (o, a, r, n, e, s) := v in Mnemonic.i_vrsqrtss_xxo (r 0) (r 1) (widen_op (o 2)));
   mkB "vsha512msg1" (fun v => let (o, a, r, n, e, s) := v in Mnemonic32.i_vsha512msg1 (r 0) (r 1))
     (fun v => let (o, a, r, n, e, s) := v in Mnemonic.i_vsha512msg1 (r 0) (r 1));
   mkB "vsha512msg2" (fun v => let (o, a, r, n, e, s) := v in Mnemonic32.i_vsha512msg2 (r 0) (r 1))
     (fun v => let (o, a, r, n, e, s) := v in Mnemonic.i_vsha512msg2 (r 0) (r 1));
   mkB "vsha512rnds2" (fun v => let (o, a, r, n, e, s) := v in Mnemonic32.i_vsha512rnds2 (r 0) (r 1) (r 2))
     (fun v => let (o, a, r, n, e, s) := v in Mnemonic.i_vsha512rnds2 (r 0) (r 1) (r 2));
   mkB "vshufpd_xxoi" (fun v => let (o, a, r, n, e, s) := v in Mnemonic32.i_vshufpd_xxoi (r 0) (r 1) (o 2) (n 3))
     (fun v => let (o, a, r, n, e, s) := v in Mnemonic.i_vshufpd_xxoi (r 0) (r 1) (widen_op (o 2)) (n 3));
   mkB "vshufps_xxoi" (fun v => let (o, a, r, n, e, s) := v in Mnemonic32.i_vshufps_xxoi (r 0) (r 1) (o 2) (n 3))
     (fun v => let (o, a, r, n, e, s) := v in Mnemonic.i_vshufps_xxoi (r 0) (r 1) (widen_op (o 2)) (n 3));
   mkB "vsm3msg1" (fun v => let (o, a, r, n, e, s) := v in Mnemonic32.i_vsm3msg1 (r 0) (r 1) (o 2))
     (fun v => let (o, a, r, n, e, s) := v in Mnemonic.i_vsm3msg1 (r 0) (r 1) (widen_op (o 2)));
   mkB "vsm3msg2" (fun v => let (o, a, r, n, e, s) := v in Mnemonic32.i_vsm3msg2 (r 0) (r 1) (o 2))
     (fun v => let (o, a, r, n, e, s) := v in Mnemonic.i_vsm3msg2 (r 0) (r 1) (widen_op (o 2)));
   mkB "vsm3rnds2" (fun v => let (o, a, r, n, e, s) := v in Mnemonic32.i_vsm3rnds2 (r 0) (r 1) (o 2) (n 3))
     (fun v => let (o, a, r, n, e, s) := v in Mnemonic.i_vsm3rnds2 (r 0) (r 1) (widen_op (o 2)) (n 3));
   mkB "vsm4key4" (fun v => let (o, a, r, n, e, s) := v in Mnemonic32.i_vsm4key4 (r 0) (r 1) (o 2))
     (fun v => let (o, a, r, n, e, s) := v in Mnemonic.i_vsm4key4 (r 0) (r 1) (widen_op (o 2)));
   mkB "vsm4rnds4" (fun v => let (o, a, r, n, e, s) := v in Mnemonic32.i_vsm4rnds4 (r 0) (r 1) (o 2))
     (fun v => let (o, a, r, n, e, s) := v in Mnemonic.i_vsm4rnds4 (r 0) (r 1) (widen_op (o 2)));
   mkB "vsqrtpd" (fun v => let (o, a, r, n, e, s) := v in Mnemonic32.i_vsqrtpd (r 0) (o 1))
     (fun v => let (o, a, r, n, e, s) := v in Mnemonic.i_vsqrtpd (r 0) (widen_op (o 1)));
   mkB "vsqrtps" (fun v => let (o, a, r, n, e, s) := v in Mnemonic32.i_vsqrtps (r 0) (o 1))
     (fun v => let (o, a, r, n, e, s) := v in Mnemonic.i_vsqrtps (r 0) (widen_op (o 1)));
   mkB "vsqrtsd_xxo" (fun v => let (o, a, r, n, e, s) := v in Mnemonic32.i_vsqrtsd_xxo (r 0) (r 1) (o 2))
     (fun v => let (o, a, r, n, e, s) := v in Mnemonic.i_vsqrtsd_xxo (r 0) (r 1) (widen_op (o 2)));
   mkB "vsqrtss_xxo" (fun v => let (o, a, r, n, e, s) := v in Mnemonic32.i_vsqrtss_xxo (r 0) (r 1) (o 2))
     (fun v => let (o, a, r, n, e, s) := v in Mnemonic.i_vsqrtss_xxo (r 0) (r 1) (widen_op (o 2)));
   mkB "vstmxcsr" (fun v => let (o, a, r, n, e, s) := v in Mnemonic32.i_vstmxcsr (a 0))
     (fun v => let (o, a, r, n, e, s) := v in Mnemonic.i_vstmxcsr (widen_addr (a 0)));
   mkB "vsubpd" (fun v => let (o, a, r, n, e, s) := v in Mnemonic32.i_vsubpd (r 0) (o 1) (o 2))
     (fun v => let (o, a, r, n, e, s) := v in Mnemonic.i_vsubpd (r 0) (widen_op (o 1)) (widen_op (o 2)));
   mkB "vsubps" (fun v => let (o, a, r, n, e, s) := v in Mnemonic32.i_vsubps (r 0) (o 1) (o 2))
     (fun v => let (o, a, r, n, e, s) := v in Mnemonic.i_vsubps (r 0) (widen_op (o 1)) (widen_op (o 2)));
   mkB "vsubsd" (fun v => let (o, a, r, n, e, s) := v in Mnemonic32.i_vsubsd (r 0) (o 1) (o 2))
     (fun v => let (o, a, r, n, e, s) := v in Mnemonic.i_vsubsd (r 0) (widen_op (o 1)) (widen_op (o 2)));
   mkB "vsubss" (fun v => let (o, a, r, n, e, s) := v in Mnemonic32.i_vsubss (r 0) (o 1) (o 2))
     (fun v => let (o, a, r, n, e, s) := v in Mnemonic.i_vsubss (r 0) (widen_op (o 1)) (widen_op (o 2)));
   mkB "vtestpd" (fun v => let (o, a, r, n, e, s) := v in Mnemonic32.i_vtestpd (r 0) (o 1))
     (fun v => let (o, a, r, n, e, s) := v in Mnemonic.i_vtestpd (r 0) (widen_op (o 1)))].
Lemma sims49_ok : Forall same sims49.
Proof. unfold sims49.
row. { unfold Mnemonic32.i_vroundps, Mnemonic.i_vroundps. row_sim. }
row. { unfold Mnemonic32.i_vroundsd_xxoi, Mnemonic.i_vroundsd_xxoi. row_sim. }
row. { unfold Mnemonic32.i_vroundss_xxoi, Mnemonic.i_vroundss_xxoi. row_sim. }
row. { unfold Mnemonic32.i_vrsqrtps, Mnemonic.i_vrsqrtps. row_sim. }
row. { unfold Mnemonic32.i_vrsqrtss_xxo, Mnemonic.i_vrsqrtss_xxo. row_sim. }
row. { unfold Mnemonic32.i_vsha512msg1, Mnemonic.i_vsha512msg1. row_sim. }
row. { unfold Mnemonic32.i_vsha512msg2, Mnemonic.i_vsha512msg2. row_sim. }
row. { unfold Mnemonic32.i_vsha512rnds2, Mnemonic.i_vsha512rnds2. row_sim. }
row. { unfold Mnemonic32.i_vshufpd_xxoi, Mnemonic.i_vshufpd_xxoi. row_sim. }
row. { unfold Mnemonic32.i_vshufps_xxoi, Mnemonic.i_vshufps_xxoi. row_sim. }
row. { unfold Mnemonic32.i_vsm3msg1, Mnemonic.i_vsm3msg1. row_sim. }
row. { unfold Mnemonic32.i_vsm3msg2, Mnemonic.i_vsm3msg2. row_sim. }
row. { unfold Mnemonic32.i_vsm3rnds2, Mnemonic.i_vsm3rnds2. row_sim. }
row. { unfold Mnemonic32.i_vsm4key4, Mnemonic.i_vsm4key4. row_sim. }
row. { unfold Mnemonic32.i_vsm4rnds4, Mnemonic.i_vsm4rnds4. row_sim. }
row. { unfold Mnemonic32.i_vsqrtpd, Mnemonic.i_vsqrtpd. row_sim. }
row. { unfold Mnemonic32.i_vsqrtps, Mnemonic.i_vsqrtps. row_sim. }
row. { unfold Mnemonic32.i_vsqrtsd_xxo, Mnemonic.i_vsqrtsd_xxo. row_sim. }
row. { unfold Mnemonic32.i_vsqrtss_xxo, Mnemonic.i_vsqrtss_xxo. row_sim. }
row. { unfold Mnemonic32.i_vstmxcsr, Mnemonic.i_vstmxcsr. row_sim. }
row. { unfold Mnemonic32.i_vsubpd, Mnemonic.i_vsubpd. row_sim. }
row. { unfold Mnemonic32.i_vsubps, Mnemonic.i_vsubps. row_sim. }
row. { unfold Mnemonic32.i_vsubsd, Mnemonic.i_vsubsd. row_sim. }
row. { unfold Mnemonic32.i_vsubss, Mnemonic.i_vsubss. row_sim. }
row. { unfold Mnemonic32.i_vtestpd, Mnemonic.i_vtestpd. row_sim. }
apply Forall_nil. Qed.
Definition sims50 : list b_entry :=
  [mkB "vtestps" (fun v => let (o, a, r, n, e, s) := v in Mnemonic32.i_vtestps (r 0) (o 1))
     (fun v => let (o, a, r, n, e, s) := v in Mnemonic.i_vtestps (r 0) (widen_op (o 1)));
   mkB "vucomisd" (fun v => let (o, a, r, n, e, s) := v in Mnemonic32.i_vucomisd (r 0) (o 1))
     (fun v => let (o, a, r, n, e, s) := v in Mnemonic.i_vucomisd (r 0) (widen_op (o 1)));
   mkB "vucomiss" (fun v => let (o, a, r, n, e, s) := v in Mnemonic32.i_vucomiss (r 0) (o 1))
     (fun v => let (o, a, r, n, e, s) := v in Mnemonic.i_vucomiss (r 0) (widen_op (o 1)));
   mkB "vunpckhpd_xxo" (fun v => let (o, a, r, n, e, s) := v in Mnemonic32.i_vunpckhpd_xxo (r 0) (r 1) (o 2))
     (fun v => let (o, a, r, n, e, s) := v in Mnemonic.i_vunpckhpd_xxo (r 0) (r 1) (widen_op (o 2)));
   mkB "vunpckhps_xxo" (fun v => let (o, a, r, n, e, s) := v in Mnemonic32.i_vunpckhps_xxo (r 0) (r 1) (o 2))
     (fun v => let (o, a, r, n, e, s) := v in Mnemonic.i_vunpckhps_xxo (r 0) (r 1) (widen_op (o 2)));
   mkB "vunpcklpd_xxo" (fun v => let (o, a, r, n, e, s) := v in Mnemonic32.i_vunpcklpd_xxo (r 0) (r 1) (o 2))
     (fun v => let (o, a, r, n, e, s) := v in Mnemonic.i_vunpcklpd_xxo (r 0) (r 1) (widen_op (o 2)));
   mkB "vunpcklps_xxo" (fun v => let (o, a, r, n, e, s) := v in Mnemonic32.i_vunpcklps_xxo (r 0) (r 1) (o 2))
     (fun v => let (o, a, r, n, e, s) := v in Mnemonic.i_vunpcklps_xxo (r 0) (r 1) (widen_op (o 2)));
   mkB "vxorpd" (fun v => let (o, a, r, n, e, s) := v in Mnemonic32.i_vxorpd (r 0) (o 1) (o 2))
     (fun v => let (o, a, r, n, e, s) := v in Mnemonic.i_vxorpd (r 0) (widen_op (o 1)) (widen_op (o 2)));
   mkB "vxorps" (fun v => let (o, a, r, n, e, s) := v in Mnemonic32.i_vxorps (r 0) (o 1) (o 2))
     (fun v => let (o, a, r, n, e, s) := v in Mnemonic.i_vxorps (r 0) (widen_op (o 1)) (widen_op (o 2)));
   mkB "xadd" (fun v => let (o, a, r, n, e, s) := v in Mnemonic32.i_xadd (o 0) (r 1))
     (fun v => let (o, a, r, n, e, s) := v in Mnemonic.i_xadd (widen_op (o 0)) (r 1));
   mkB "xor__oi" (fun v => let (o, a, r, n, e, s) := v in Mnemonic32.i_xor__oi (o 0) (n 1))
     (fun v => let (o, a, r, n, e, s) := v in Mnemonic.i_xor__oi (widen_op (o 0)) (n 1));
   mkB "xor__oo" (fun v => let (o, a, r, n, e, s) := v in Mnemonic32.i_xor__oo (o 0) (o 1))
     (fun v => let (o, a, r, n, e, s) := v in Mnemonic.i_xor__oo (widen_op (o 0)) (widen_op (o 1)));
   mkB "xor__roi" (fun v => let (o, a, r, n, e, s) := v in Mnemonic32.i_xor__roi (r 0) (o 1) (n 2))
     (fun v => let (o, a, r, n, e, s) := v in Mnemonic.i_xor__roi (r 0) (widen_op (o 1)) (n 2));
   mkB "xor__roo" (fun v => let (o, a, r, n, e, s) := v in Mnemonic32.i_xor__roo (r 0) (o 1) (o 2))
     (fun v => let (o, a, r, n, e, s) := v in Mnemonic.i_xor__roo (r 0) (widen_op (o 1)) (widen_op (o 2)));
   mkB "xorpd" (fun v => let (o, a, r, n, e, s) := v in Mnemonic32.i_xorpd (r 0) (o 1))
     (fun v => let (o, a, r, n, e, s) := v in Mnemonic.i_xorpd (r 0) (widen_op (o 1)));
   mkB "xorps" (fun v => let (o, a, r, n, e, s) := v in Mnemonic32.i_xorps (r 0) (o 1))
     (fun v => let (o, a, r, n, e, s) := v in Mnemonic.i_xorps (r 0) (widen_op (o 1)));
   mkB "and_oo" (fun v => let (o, a, r, n, e, s) := v in Mnemonic32.i_and_oo (o 0) (o 1))
     (fun v => let (o, a, r, n, e, s) := v in Mnemonic.i_and_oo (widen_op (o 0)) (widen_op (o 1)));
   mkB "and_oi" (fun v => let (o, a, r, n, e, s) := v in Mnemonic32.i_and_oi (o 0) (n 1))
     (fun v => let (o, a, r, n, e, s) := v in Mnemonic.i_and_oi (widen_op (o 0)) (n 1));
   mkB "or_oo" (fun v => let (o, a, r, n, e, s) := v in Mnemonic32.i_or_oo (o 0) (o 1))
     (fun v => let (o, a, r, n, e, s) := v in Mnemonic.i_or_oo (widen_op (o 0)) (widen_op (o 1)));
   mkB "or_oi" (fun v => let (o, a, r, n, e, s) := v in Mnemonic32.i_or_oi (o 0) (n 1))
     (fun v => let (o, a, r, n, e, s) := v in Mnemonic.i_or_oi (widen_op (o 0)) (n 1));
   mkB "xor_oo" (fun v => let (o, a, r, n, e, s) := v in Mnemonic32.i_xor_oo (o 0) (o 1))
     (fun v => let (o, a, r, n, e, s) := v in Mnemonic.i_xor_oo (widen_op (o 0)) (widen_op (o 1)));
   mkB "xor_oi" (fun v => let (o, a, r, n, e, s) := v in Mnemonic32.i_xor_oi (o 0) (n 1))
     (fun v => let (o, a, r, n, e, s) := v in Mnemonic.i_xor_oi (widen_op (o 0)) (n 1));
   mkB "not" (fun v => let (o, a, r, n, e, s) := v in Mnemonic32.i_not (o 0))
     (fun v => let (o, a, r, n, e, s) := v in Mnemonic.i_not (widen_op (o 0)));
   mkB "vmpsadbw_xxoip" (fun v => let (o, a, r, n, e, s) := v in MnemonicAvx32.i_vmpsadbw_xxoip (r 0) (r 1) (o 2) (n 3) e)
     (fun v => let (o, a, r, n, e, s) := v in MnemonicAvx.i_vmpsadbw_xxoip (r 0) (r 1) (widen_op (o 2)) (n 3) e);
   mkB "kaddb" (fun v => let (o, a, r, n, e, s) := v in MnemonicAvx32.i_kaddb (r 0) (r 1) (r 2))
     (fun v => let (o, a, r, n, e, s) := v in MnemonicAvx.i_kaddb (r 0) (r 1) (r 2))].
Lemma sims50_ok : Forall same sims50.
Proof. unfold sims50.
row. { unfold Mnemonic32.i_vtestps, Mnemonic.i_vtestps. row_sim. }
row. { unfold Mnemonic32.i_vucomisd, Mnemonic.i_vucomisd. row_sim. }
row. { unfold Mnemonic32.i_vucomiss, Mnemonic.i_vucomiss. row_sim. }
row. { unfold Mnemonic32.i_vunpckhpd_xxo, Mnemonic.i_vunpckhpd_xxo. row_sim. }
row. { unfold Mnemonic32.i_vunpckhps_xxo, Mnemonic.i_vunpckhps_xxo. row_sim. }
row. { unfold Mnemonic32.i_vunpcklpd_xxo, Mnemonic.i_vunpcklpd_xxo. row_sim. }
row. { unfold Mnemonic32.i_vunpcklps_xxo, Mnemonic.i_vunpcklps_xxo. row_sim. }
row. { unfold Mnemonic32.i_vxorpd, Mnemonic.i_vxorpd. row_sim. }
row. { unfold Mnemonic32.i_vxorps, Mnemonic.i_vxorps. row_sim. }
srow_. { unfold Mnemonic32.i_xadd, Mnemonic.i_xadd. row_sim. }
row. { unfold Mnemonic32.i_xor__oi, Mnemonic.i_xor__oi. row_sim. }
srow_. { unfold Mnemonic32.i_xor__oo, Mnemonic.i_xor__oo. row_sim. }
row. { unfold Mnemonic32.i_xor__roi, Mnemonic.i_xor__roi. row_sim. }
row. { unfold Mnemonic32.i_xor__roo, Mnemonic.i_xor__roo. row_sim. }
srow_. { unfold Mnemonic32.i_xorpd, Mnemonic.i_xorpd. row_sim. }
srow_. { unfold Mnemonic32.i_xorps, Mnemonic.i_xorps. row_sim. }
srow_. { unfold Mnemonic32.i_and_oo, Mnemonic32.i_and__oo, Mnemonic.i_and_oo, Mnemonic.i_and__oo. row_sim. }
row. { unfold Mnemonic32.i_and_oi, Mnemonic32.i_and__oi, Mnemonic.i_and_oi, Mnemonic.i_and__oi. row_sim. }
srow_. { unfold Mnemonic32.i_or_oo, Mnemonic32.i_or__oo, Mnemonic.i_or_oo, Mnemonic.i_or__oo. row_sim. }
row. { unfold Mnemonic32.i_or_oi, Mnemonic32.i_or__oi, Mnemonic.i_or_oi, Mnemonic.i_or__oi. row_sim. }
srow_. { unfold Mnemonic32.i_xor_oo, Mnemonic32.i_xor__oo, Mnemonic.i_xor_oo, Mnemonic.i_xor__oo. row_sim. }
row. { unfold Mnemonic32.i_xor_oi, Mnemonic32.i_xor__oi, Mnemonic.i_xor_oi, Mnemonic.i_xor__oi. row_sim. }
row. { unfold Mnemonic32.i_not, Mnemonic32.i_not__o, Mnemonic.i_not, Mnemonic.i_not__o. row_sim. }
row. { unfold MnemonicAvx32.i_vmpsadbw_xxoip, MnemonicAvx.i_vmpsadbw_xxoip. row_sim. }
row. { unfold MnemonicAvx32.i_kaddb, MnemonicAvx.i_kaddb. row_sim. }
apply Forall_nil. Qed.
Definition sims51 : list b_entry :=
  [mkB "kaddd" (fun v => let (o, a, r, n, e, s) := v in MnemonicAvx32.i_kaddd (r 0) (r 1) (r 2))
     (fun v => let (o, a, r, n, e, s) := v in MnemonicAvx.i_kaddd (r 0) (r 1) (r 2));
   mkB "kaddq" (fun v => let (o, a, r, n, e, s) := v in MnemonicAvx32.i_kaddq (r 0) (r 1) (r 2))
     (fun v => let (o, a, r, n, e, s) := v in MnemonicAvx.i_kaddq (r 0) (r 1) (r 2));
   mkB "kaddw" (fun v => let (o, a, r, n, e, s) := v in MnemonicAvx32.i_kaddw (r 0) (r 1) (r 2))
     (fun v => let (o, a, r, n, e, s) := v in MnemonicAvx.i_kaddw (r 0) (r 1) (r 2));
   mkB "kandb" (fun v => let (o, a, r, n, e, s) := v in MnemonicAvx32.i_kandb (r 0) (r 1) (r 2))
     (fun v => let (o, a, r, n, e, s) := v in MnemonicAvx.i_kandb (r 0) (r 1) (r 2));
   mkB "kandd" (fun v => let (o, a, r, n, e, s) := v in MnemonicAvx32.i_kandd (r 0) (r 1) (r 2))
     (fun v => let (o, a, r, n, e, s) := v in MnemonicAvx.i_kandd (r 0) (r 1) (r 2));
   mkB "kandnb" (fun v => let (o, a, r, n, e, s) := v in MnemonicAvx32.i_kandnb (r 0) (r 1) (r 2))
     (fun v => let (o, a, r, n, e, s) := v in MnemonicAvx.i_kandnb (r 0) (r 1) (r 2));
   mkB "kandnd" (fun v => let (o, a, r, n, e, s) := v in MnemonicAvx32.i_kandnd (r 0) (r 1) (r 2))
     (fun v => let (o, a, r, n, e, s) := v in MnemonicAvx.i_kandnd (r 0) (r 1) (r 2));
   mkB "kandnq" (fun v => let (o, a, r, n, e, s) := v in MnemonicAvx32.i_kandnq (r 0) (r 1) (r 2))
     (fun v => let (o, a, r, n, e, s) := v in MnemonicAvx.i_kandnq (r 0) (r 1) (r 2));
   mkB "kandnw" (fun v => let (o, a, r, n, e, s) := v in MnemonicAvx32.i_kandnw (r 0) (r 1) (r 2))
     (fun v => let (o, a, r, n, e, s) := v in MnemonicAvx.i_kandnw (r 0) (r 1) (r 2));
   mkB "kandq" (fun v => let (o, a, r, n, e, s) := v in MnemonicAvx32.i_kandq (r 0) (r 1) (r 2))
     (fun v => let (o, a, r, n, e, s) := v in MnemonicAvx.i_kandq (r 0) (r 1) (r 2));
   mkB "kandw" (fun v => let (o, a, r, n, e, s) := v in MnemonicAvx32.i_kandw (r 0) (r 1) (r 2))
     (fun v => let (o, a, r, n, e, s) := v in MnemonicAvx.i_kandw (r 0) (r 1) (r 2));
   mkB "kmovb_ak" (fun v => let (o, a, r, n, e, s) := v in MnemonicAvx32.i_kmovb_ak (a 0) (r 1))
     (fun v => let (o, a, r, n, e, s) := v in MnemonicAvx.i_kmovb_ak (widen_addr (a 0)) (r 1));
   mkB "kmovb_ko" (fun v => let (o, a, r, n, e, s) := v in MnemonicAvx32.i_kmovb_ko (r 0) (o 1))
     (fun v => let (o, a, r, n, e, s) := v in MnemonicAvx.i_kmovb_ko (r 0) (widen_op (o 1)));
   mkB "kmovb_dk" (fun v => let (o, a, r, n, e, s) := v in MnemonicAvx32.i_kmovb_dk (r 0) (r 1))
     (fun v => let (o, a, r, n, e, s) := v in MnemonicAvx.i_kmovb_dk (r 0) (r 1));
   mkB "kmovd_ak" (fun v => let (o, a, r, n, e, s) := v in MnemonicAvx32.i_kmovd_ak (a 0) (r 1))
     (fun v => let (o, a, r, n, e, s) := v in MnemonicAvx.i_kmovd_ak (widen_addr (a 0)) (r 1));
   mkB "kmovd_ko" (fun v => let (o, a, r, n, e, s) := v in MnemonicAvx32.i_kmovd_ko (r 0) (o 1))
     (fun v => let (o, a, r, n, e, s) := v in MnemonicAvx.i_kmovd_ko (r 0) (widen_op (o 1)));
   mkB "kmovd_dk" (fun v => let (o, a, r, n, e, s) := v in MnemonicAvx32.i_kmovd_dk (r 0) (r 1))
     (fun v => let (o, a, r, n, e, s) := v in MnemonicAvx.i_kmovd_dk (r 0) (r 1));
   mkB "kmovq_ak" (fun v => let (o, a, r, n, e, s) := v in MnemonicAvx32.i_kmovq_ak (a 0) (r 1))
     (fun v => let (o, a, r, n, e, s) := v in MnemonicAvx.i_kmovq_ak (widen_addr (a 0)) (r 1));
   mkB "kmovq_ko" (fun v => let (o, a, r, n, e, s) := v in MnemonicAvx32.i_kmovq_ko (r 0) (o 1))
     (fun v => let (o, a, r, n, e, s) := v in MnemonicAvx.i_kmovq_ko (r 0) (widen_op (o 1)));
   mkB "kmovw_ak" (fun v => let (o, a, r, n, e, s) := v in MnemonicAvx32.i_kmovw_ak (a 0) (r 1))
     (fun v => let (o, a, r, n, e, s) := v in MnemonicAvx.i_kmovw_ak (widen_addr (a 0)) (r 1));
   mkB "kmovw_ko" (fun v => let (o, a, r, n, e, s) := v in MnemonicAvx32.i_kmovw_ko (r 0) (o 1))
     (fun v => let (o, a, r, n, e, s) := v in MnemonicAvx.i_kmovw_ko (r 0) (widen_op (o 1)));
   mkB "kmovw_dk" (fun v => let (o, a, r, n, e, s) := v in MnemonicAvx32.i_kmovw_dk (r 0) (r 1))
     (fun v => let (o, a, r, n, e, s) := v in MnemonicAvx.i_kmovw_dk (r 0) (r 1));
   mkB "knotb" (fun v => let (o, a, r, n, e, s) := v in MnemonicAvx32.i_knotb (r 0) (r 1))
     (fun v => let (o, a, r, n, e, s) := v in MnemonicAvx.i_knotb (r 0) (r 1));
   mkB "knotd" (fun v => let (o, a, r, n, e, s) := v in MnemonicAvx32.i_knotd (r 0) (r 1))
     (fun v => let (o, a, r, n, e, s) := v in MnemonicAvx.i_knotd (r 0) (r 1));
   mkB "knotq" (fun v => let (o, a, r, n, e, s) := v in MnemonicAvx32.i_knotq (r 0) (r 1))
     (fun v => let (o, a, r, n, e, s) := v in MnemonicAvx.i_knotq (r 0) (r 1))].
Lemma sims51_ok : Forall same sims51.
Proof. unfold sims51.
row. { unfold MnemonicAvx32.i_kaddd, MnemonicAvx.i_kaddd. row_sim. }
row. { unfold MnemonicAvx32.i_kaddq, MnemonicAvx.i_kaddq. row_sim. }
row. { unfold MnemonicAvx32.i_kaddw, MnemonicAvx.i_kaddw. row_sim. }
row. { unfold MnemonicAvx32.i_kandb, MnemonicAvx.i_kandb. row_sim. }
row. { unfold MnemonicAvx32.i_kandd, MnemonicAvx.i_kandd. row_sim. }
row. { unfold MnemonicAvx32.i_kandnb, MnemonicAvx.i_kandnb. row_sim. }
row. { unfold MnemonicAvx32.i_kandnd, MnemonicAvx.i_kandnd. row_sim. }
row. { unfold MnemonicAvx32.i_kandnq, MnemonicAvx.i_kandnq. row_sim. }
row. { unfold MnemonicAvx32.i_kandnw, MnemonicAvx.i_kandnw. row_sim. }
row. { unfold MnemonicAvx32.i_kandq, MnemonicAvx.i_kandq. row_sim. }
row. { unfold MnemonicAvx32.i_kandw, MnemonicAvx.i_kandw. row_sim. }
row. { unfold MnemonicAvx32.i_kmovb_ak, MnemonicAvx.i_kmovb_ak. row_sim. }
row. { unfold MnemonicAvx32.i_kmovb_ko, MnemonicAvx.i_kmovb_ko. row_sim. }
row. { unfold MnemonicAvx32.i_kmovb_dk, MnemonicAvx.i_kmovb_dk. row_sim. }
row. { unfold MnemonicAvx32.i_kmovd_ak, MnemonicAvx.i_kmovd_ak. row_sim. }
row. { unfold MnemonicAvx32.i_kmovd_ko, MnemonicAvx.i_kmovd_ko. row_sim. }
row. { unfold MnemonicAvx32.i_kmovd_dk, MnemonicAvx.i_kmovd_dk. row_sim. }
row. { unfold MnemonicAvx32.i_kmovq_ak, MnemonicAvx.i_kmovq_ak. row_sim. }
row. { unfold MnemonicAvx32.i_kmovq_ko, MnemonicAvx.i_kmovq_ko. row_sim. }
row. { unfold MnemonicAvx32.i_kmovw_ak, MnemonicAvx.i_kmovw_ak. row_sim. }
row. { unfold MnemonicAvx32.i_kmovw_ko, MnemonicAvx.i_kmovw_ko. row_sim. }
row. { unfold MnemonicAvx32.i_kmovw_dk, MnemonicAvx.i_kmovw_dk. row_sim. }
row. { unfold MnemonicAvx32.i_knotb, MnemonicAvx.i_knotb. row_sim. }
row. { unfold MnemonicAvx32.i_knotd, MnemonicAvx.i_knotd. row_sim. }
row. { unfold MnemonicAvx32.i_knotq, MnemonicAvx.i_knotq. row_sim. }
apply Forall_nil. Qed.
Definition sims52 : list b_entry :=
  [mkB "knotw" (fun v => let (o, a, r, n, e, s) := v in MnemonicAvx32.i_knotw (r 0) (r 1))
     (fun v => let (o, a, r, n, e, s) := v in MnemonicAvx.i_knotw (r 0) (r 1));
   mkB "korb" (fun v => let (o, a, r, n, e, s) := v in MnemonicAvx32.i_korb (r 0) (r 1) (r 2))
     (fun v => let (o, a, r, n, e, s) := v in MnemonicAvx.i_korb (r 0) (r 1) (r 2));
   mkB "kord" (fun v => let (o, a, r, n, e, s) := v in MnemonicAvx32.i_kord (r 0) (r 1) (r 2))
     (fun v => let (o, a, r, n, e, s) := v in MnemonicAvx.i_kord (r 0) (r 1) (r 2));
   mkB "korq" (fun v => let (o, a, r, n, e, s) := v in MnemonicAvx32.i_korq (r 0) (r 1) (r 2))
     (fun v => let (o, a, r, n, e, s) := v in MnemonicAvx.i_korq (r 0) (r 1) (r 2));
   mkB "kortestb" (fun v => let (o, a, r, n, e, s) := v in MnemonicAvx32.i_kortestb (r 0) (r 1))
     (fun v => let (o, a, r, n, e, s) := v in MnemonicAvx.i_kortestb (r 0) (r 1));
   mkB "kortestd" (fun v => let (o, a, r, n, e, s) := v in MnemonicAvx32.i_kortestd (r 0) (r 1))
     (fun v => let (o, a, r, n, e, s) := v in MnemonicAvx.i_kortestd (r 0) (r 1));
   mkB "kortestq" (fun v => let (o, a, r, n, e, s) := v in MnemonicAvx32.i_kortestq (r 0) (r 1))
     (fun v => let (o, a, r, n, e, s) := v in MnemonicAvx.i_kortestq (r 0) (r 1));
   mkB "kortestw" (fun v => let (o, a, r, n, e, s) := v in MnemonicAvx32.i_kortestw (r 0) (r 1))
     (fun v => let (o, a, r, n, e, s) := v in MnemonicAvx.i_kortestw (r 0) (r 1));
   mkB "korw" (fun v => let (o, a, r, n, e, s) := v in MnemonicAvx32.i_korw (r 0) (r 1) (r 2))
     (fun v => let (o, a, r, n, e, s) := v in MnemonicAvx.i_korw (r 0) (r 1) (r 2));
   mkB "kshiftlb" (fun v => let (o, a, r, n, e, s) := v in MnemonicAvx32.i_kshiftlb (r 0) (r 1) (n 2))
     (fun v => let (o, a, r, n, e, s) := v in MnemonicAvx.i_kshiftlb (r 0) (r 1) (n 2));
   mkB "kshiftld" (fun v => let (o, a, r, n, e, s) := v in MnemonicAvx32.i_kshiftld (r 0) (r 1) (n 2))
     (fun v => let (o, a, r, n, e, s) := v in MnemonicAvx.i_kshiftld (r 0) (r 1) (n 2));
   mkB "kshiftlq" (fun v => let (o, a, r, n, e, s) := v in MnemonicAvx32.i_kshiftlq (r 0) (r 1) (n 2))
     (fun v => let (o, a, r, n, e, s) := v in MnemonicAvx.i_kshiftlq (r 0) (r 1) (n 2));
   mkB "kshiftlw" (fun v => let (o, a, r, n, e, s) := v in MnemonicAvx32.i_kshiftlw (r 0) (r 1) (n 2))
     (fun v => let (o, a, r, n, e, s) := v in MnemonicAvx.i_kshiftlw (r 0) (r 1) (n 2));
   mkB "kshiftrb" (fun v => let (o, a, r, n, e, s) := v in MnemonicAvx32.i_kshiftrb (r 0) (r 1) (n 2))
     (fun v => let (o, a, r, n, e, s) := v in MnemonicAvx.i_kshiftrb (r 0) (r 1) (n 2));
   mkB "kshiftrd" (fun v => let (o, a, r, n, e, s) := v in MnemonicAvx32.i_kshiftrd (r 0) (r 1) (n 2))
     (fun v => let (o, a, r, n, e, s) := v in MnemonicAvx.i_kshiftrd (r 0) (r 1) (n 2));
   mkB "kshiftrq" (fun v => let (o, a, r, n, e, s) := v in MnemonicAvx32.i_kshiftrq (r 0) (r 1) (n 2))
     (fun v => let (o, a, r, n, e, s) := v in MnemonicAvx.i_kshiftrq (r 0) (r 1) (n 2));
   mkB "kshiftrw" (fun v => let (o, a, r, n, e, s) := v in MnemonicAvx32.i_kshiftrw (r 0) (r 1) (n 2))
     (fun v => let (o, a, r, n, e, s) := v in MnemonicAvx.i_kshiftrw (r 0) (r 1) (n 2));
   mkB "ktestb" (fun v => let (o, a, r, n, e, s) := v in MnemonicAvx32.i_ktestb (r 0) (r 1))
     (fun v => let (o, a, r, n, e, s) := v in MnemonicAvx.i_ktestb (r 0) (r 1));
   mkB "ktestd" (fun v => let (o, a, r, n, e, s) := v in MnemonicAvx32.i_ktestd (r 0) (r 1))
     (fun v => let (o, a, r, n, e, s) := v in MnemonicAvx.i_ktestd (r 0) (r 1));
   mkB "ktestq" (fun v => let (o, a, r, n, e, s) := v in MnemonicAvx32.i_ktestq (r 0) (r 1))
     (fun v => let (o, a, r, n, e, s) := v in MnemonicAvx.i_ktestq (r 0) (r 1));
   mkB "ktestw" (fun v => let (o, a, r, n, e, s) := v in MnemonicAvx32.i_ktestw (r 0) (r 1))
     (fun v => let (o, a, r, n, e, s) := v in MnemonicAvx.i_ktestw (r 0) (r 1));
   mkB "kunpckbw" (fun v => let (o, a, r, n, e, s) := v in MnemonicAvx32.i_kunpckbw (r 0) (r 1) (r 2))
     (fun v => let (o, a, r, n, e, s) := v in MnemonicAvx.i_kunpckbw (r 0) (r 1) (r 2));
   mkB "kunpckdq" (fun v => let (o, a, r, n, e, s) := v in MnemonicAvx32.i_kunpckdq (r 0) (r 1) (r 2))
     (fun v => let (o, a, r, n, e, s) := v in MnemonicAvx.i_kunpckdq (r 0) (r 1) (r 2));
   mkB "kunpckwd" (fun v => let (o, a, r, n, e, s) := v in MnemonicAvx32.i_kunpckwd (r 0) (r 1) (r 2))
     (fun v => let (o, a, r, n, e, s) := v in MnemonicAvx.i_kunpckwd (r 0) (r 1) (r 2));
   mkB "kxnorb" (fun v => let (o, a, r, n, e, s) := v in MnemonicAvx32.i_kxnorb (r 0) (r 1) (r 2))
     (fun v => let (o, a, r, n, e, s) := v in MnemonicAvx.i_kxnorb (r 0) (r 1) (r 2))].
Lemma sims52_ok : Forall same sims52.
Proof. unfold sims52.
row. { unfold MnemonicAvx32.i_knotw, MnemonicAvx.i_knotw. row_sim. }
row. { unfold MnemonicAvx32.i_korb, MnemonicAvx.i_korb. row_sim. }
row. { unfold MnemonicAvx32.i_kord, MnemonicAvx.i_kord. row_sim. }
row. { unfold MnemonicAvx32.i_korq, MnemonicAvx.i_korq. row_sim. }
row. { unfold MnemonicAvx32.i_kortestb, MnemonicAvx.i_kortestb. row_sim. }
row. { unfold MnemonicAvx32.i_kortestd, MnemonicAvx.i_kortestd. row_sim. }
row. { unfold MnemonicAvx32.i_kortestq, MnemonicAvx.i_kortestq. row_sim. }
row. { unfold MnemonicAvx32.i_kortestw, MnemonicAvx.i_kortestw. row_sim. }
row. { unfold MnemonicAvx32.i_korw, MnemonicAvx.i_korw. row_sim. }
row. { unfold MnemonicAvx32.i_kshiftlb, MnemonicAvx.i_kshiftlb. row_sim. }
row. { unfold MnemonicAvx32.i_kshiftld, MnemonicAvx.i_kshiftld. row_sim. }
row. { unfold MnemonicAvx32.i_kshiftlq, MnemonicAvx.i_kshiftlq. row_sim. }
row. { unfold MnemonicAvx32.i_kshiftlw, MnemonicAvx.i_kshiftlw. row_sim. }
row. { unfold MnemonicAvx32.i_kshiftrb, MnemonicAvx.i_kshiftrb. row_sim. }
row. { unfold MnemonicAvx32.i_kshiftrd, MnemonicAvx.i_kshiftrd. row_sim. }
row. { unfold MnemonicAvx32.i_kshiftrq, MnemonicAvx.i_kshiftrq. row_sim. }
row. { unfold MnemonicAvx32.i_kshiftrw, MnemonicAvx.i_kshiftrw. row_sim. }
row. { unfold MnemonicAvx32.i_ktestb, MnemonicAvx.i_ktestb. row_sim. }
row. { unfold MnemonicAvx32.i_ktestd, MnemonicAvx.i_ktestd. row_sim. }
row. { unfold MnemonicAvx32.i_ktestq, MnemonicAvx.i_ktestq. row_sim. }
row. { unfold MnemonicAvx32.i_ktestw, MnemonicAvx.i_ktestw. row_sim. }
row. { unfold MnemonicAvx32.i_kunpckbw, MnemonicAvx.i_kunpckbw. row_sim. }
row. { unfold MnemonicAvx32.i_kunpckdq, MnemonicAvx.i_kunpckdq. row_sim. }
row. { unfold MnemonicAvx32.i_kunpckwd, MnemonicAvx.i_kunpckwd. row_sim. }
row. { unfold MnemonicAvx32.i_kxnorb, MnemonicAvx.i_kxnorb. row_sim. }
apply Forall_nil. Qed.
Definition sims53 : list b_entry :=
  [mkB "kxnord" (fun v => let (o, a, r, n, e, s) := v in MnemonicAvx32.i_kxnord (r 0) (r 1) (r 2))
     (fun v => let (o, a, r, n, e, s) := v in MnemonicAvx.i_kxnord (r 0) (r 1) (r 2));
   mkB "kxnorq" (fun v => let (o, a, r, n, e, s) := v in MnemonicAvx32.i_kxnorq (r 0) (r 1) (r 2))
     (fun v => let (o, a, r, n, e, s) := v in MnemonicAvx.i_kxnorq (r 0) (r 1) (r 2));
   mkB "kxnorw" (fun v => let (o, a, r, n, e, s) := v in MnemonicAvx32.i_kxnorw (r 0) (r 1) (r 2))
     (fun v => let (o, a, r, n, e, s) := v in MnemonicAvx.i_kxnorw (r 0) (r 1) (r 2));
   mkB "kxorb" (fun v => let (o, a, r, n, e, s) := v in MnemonicAvx32.i_kxorb (r 0) (r 1) (r 2))
     (fun v => let (o, a, r, n, e, s) := v in MnemonicAvx.i_kxorb (r 0) (r 1) (r 2));
   mkB "kxord" (fun v => let (o, a, r, n, e, s) := v in MnemonicAvx32.i_kxord (r 0) (r 1) (r 2))
     (fun v => let (o, a, r, n, e, s) := v in MnemonicAvx.i_kxord (r 0) (r 1) (r 2));
   mkB "kxorq" (fun v => let (o, a, r, n, e, s) := v in MnemonicAvx32.i_kxorq (r 0) (r 1) (r 2))
     (fun v => let (o, a, r, n, e, s) := v in MnemonicAvx.i_kxorq (r 0) (r 1) (r 2));
   mkB "kxorw" (fun v => let (o, a, r, n, e, s) := v in MnemonicAvx32.i_kxorw (r 0) (r 1) (r 2))
     (fun v => let (o, a, r, n, e, s) := v in MnemonicAvx.i_kxorw (r 0) (r 1) (r 2));
   mkB "v4fmaddps" (fun v => let (o, a, r, n, e, s) := v in MnemonicAvx32.i_v4fmaddps (r 0) (r 1) (a 2))
     (fun v => let (o, a, r, n, e, s) := v in MnemonicAvx.i_v4fmaddps (r 0) (r 1) (widen_addr (a 2)));
   mkB "v4fmaddss" (fun v => let (o, a, r, n, e, s) := v in MnemonicAvx32.i_v4fmaddss (r 0) (r 1) (a 2))
     (fun v => let (o, a, r, n, e, s) := v in MnemonicAvx.i_v4fmaddss (r 0) (r 1) (widen_addr (a 2)));
   mkB "v4fnmaddps" (fun v => let (o, a, r, n, e, s) := v in MnemonicAvx32.i_v4fnmaddps (r 0) (r 1) (a 2))
     (fun v => let (o, a, r, n, e, s) := v in MnemonicAvx.i_v4fnmaddps (r 0) (r 1) (widen_addr (a 2)));
   mkB "v4fnmaddss" (fun v => let (o, a, r, n, e, s) := v in MnemonicAvx32.i_v4fnmaddss (r 0) (r 1) (a 2))
     (fun v => let (o, a, r, n, e, s) := v in MnemonicAvx.i_v4fnmaddss (r 0) (r 1) (widen_addr (a 2)));
   mkB "vaddnepbf16" (fun v => let (o, a, r, n, e, s) := v in MnemonicAvx32.i_vaddnepbf16 (r 0) (r 1) (o 2))
     (fun v => let (o, a, r, n, e, s) := v in MnemonicAvx.i_vaddnepbf16 (r 0) (r 1) (widen_op (o 2)));
   mkB "vaddph" (fun v => let (o, a, r, n, e, s) := v in MnemonicAvx32.i_vaddph (r 0) (o 1) (o 2))
     (fun v => let (o, a, r, n, e, s) := v in MnemonicAvx.i_vaddph (r 0) (widen_op (o 1)) (widen_op (o 2)));
   mkB "vaddsh" (fun v => let (o, a, r, n, e, s) := v in MnemonicAvx32.i_vaddsh (r 0) (o 1) (o 2))
     (fun v => let (o, a, r, n, e, s) := v in MnemonicAvx.i_vaddsh (r 0) (widen_op (o 1)) (widen_op (o 2)));
   mkB "valignd" (fun v => let (o, a, r, n, e, s) := v in MnemonicAvx32.i_valignd (r 0) (r 1) (o 2) (n 3))
     (fun v => let (o, a, r, n, e, s) := v in MnemonicAvx.i_valignd (r 0) (r 1) (widen_op (o 2)) (n 3));
   mkB "valignq" (fun v => let (o, a, r, n, e, s) := v in MnemonicAvx32.i_valignq (r 0) (r 1) (o 2) (n 3))
     (fun v => let (o, a, r, n, e, s) := v in MnemonicAvx.i_valignq (r 0) (r 1) (widen_op (o 2)) (n 3));
   mkB "vblendmpd" (fun v => let (o, a, r, n, e, s) := v in MnemonicAvx32.i_vblendmpd (r 0) (r 1) (o 2))
     (fun v => let (o, a, r, n, e, s) := v in MnemonicAvx.i_vblendmpd (r 0) (r 1) (widen_op (o 2)));
   mkB "vblendmps" (fun v => let (o, a, r, n, e, s) := v in MnemonicAvx32.i_vblendmps (r 0) (r 1) (o 2))
     (fun v => let (o, a, r, n, e, s) := v in MnemonicAvx.i_vblendmps (r 0) (r 1) (widen_op (o 2)));
   mkB "vbroadcastf32x2" (fun v => let (o, a, r, n, e, s) := v in MnemonicAvx32.i_vbroadcastf32x2 (r 0) (o 1))
     (fun v => let (o, a, r, n, e, s) := v in MnemonicAvx.i_vbroadcastf32x2 (r 0) (widen_op (o 1)));
   mkB "vbroadcastf32x4" (fun v => let (o, a, r, n, e, s) := v in MnemonicAvx32.i_vbroadcastf32x4 (r 0) (a 1))
     (fun v => let (o, a, r, n, e, s) := v in MnemonicAvx.i_vbroadcastf32x4 (r 0) (widen_addr (a 1)));
   mkB "vbroadcastf32x8" (fun v => let (o, a, r, n, e, s) := v in MnemonicAvx32.i_vbroadcastf32x8 (r 0) (a 1))
     (fun v => let (o, a, r, n, e, s) := v in MnemonicAvx.i_vbroadcastf32x8 (r 0) (widen_addr (a 1)));
   mkB "vbroadcastf64x2" (fun v => let (o, a, r, n, e, s) := v in MnemonicAvx32.i_vbroadcastf64x2 (r 0) (a 1))
     (fun v => let (o, a, r, n, e, s) := v in MnemonicAvx.i_vbroadcastf64x2 (r 0) (widen_addr (a 1)));
   mkB "vbroadcastf64x4" (fun v => let (o, a, r, n, e, s) := v in MnemonicAvx32.i_vbroadcastf64x4 (r 0) (a 1))
     (fun v => let (o, a, r, n, e, s) := v in MnemonicAvx.i_vbroadcastf64x4 (r 0) (widen_addr (a 1)));
   mkB "vbroadcasti32x2" (fun v => let (o, a, r, n, e, s) := v in MnemonicAvx32.i_vbroadcasti32x2 (r 0) (o 1))
     (fun v => let (o, a, r, n, e, s) := v in MnemonicAvx.i_vbroadcasti32x2 (r 0) (widen_op (o 1)));
   mkB "vbroadcasti32x4" (fun v => let (o, a, r, n, e, s) := v in MnemonicAvx32.i_vbroadcasti32x4 (r 0) (o 1))
     (fun v => let (o, a, r, n, e, s) := v in MnemonicAvx.i_vbroadcasti32x4 (r 0) (widen_op (o 1)))].
Lemma sims53_ok : Forall same sims53.
Proof. unfold sims53.
row. { unfold MnemonicAvx32.i_kxnord, MnemonicAvx.i_kxnord. row_sim. }
row. { unfold MnemonicAvx32.i_kxnorq, MnemonicAvx.i_kxnorq. row_sim. }
row. { unfold MnemonicAvx32.i_kxnorw, MnemonicAvx.i_kxnorw. row_sim. }
row. { unfold MnemonicAvx32.i_kxorb, MnemonicAvx.i_kxorb. row_sim. }
row. { unfold MnemonicAvx32.i_kxord, MnemonicAvx.i_kxord. row_sim. }
row. { unfold MnemonicAvx32.i_kxorq, MnemonicAvx.i_kxorq. row_sim. }
row. { unfold MnemonicAvx32.i_kxorw, MnemonicAvx.i_kxorw. row_sim. }
row. { unfold MnemonicAvx32.i_v4fmaddps, MnemonicAvx.i_v4fmaddps. row_sim. }
row. { unfold MnemonicAvx32.i_v4fmaddss, MnemonicAvx.i_v4fmaddss. row_sim. }
row. { unfold MnemonicAvx32.i_v4fnmaddps, MnemonicAvx.i_v4fnmaddps. row_sim. }
row. { unfold MnemonicAvx32.i_v4fnmaddss, MnemonicAvx.i_v4fnmaddss. row_sim. }
row. { unfold MnemonicAvx32.i_vaddnepbf16, MnemonicAvx.i_vaddnepbf16. row_sim. }
row. { unfold MnemonicAvx32.i_vaddph, MnemonicAvx.i_vaddph. row_sim. }
row. { unfold MnemonicAvx32.i_vaddsh, MnemonicAvx.i_vaddsh. row_sim. }
row. { unfold MnemonicAvx32.i_valignd, MnemonicAvx.i_valignd. row_sim. }
row. { unfold MnemonicAvx32.i_valignq, MnemonicAvx.i_valignq. row_sim. }
row. { unfold MnemonicAvx32.i_vblendmpd, MnemonicAvx.i_vblendmpd. row_sim. }
row. { unfold MnemonicAvx32.i_vblendmps, MnemonicAvx.i_vblendmps. row_sim. }
row. { unfold MnemonicAvx32.i_vbroadcastf32x2, MnemonicAvx.i_vbroadcastf32x2. row_sim. }
row. { unfold MnemonicAvx32.i_vbroadcastf32x4, MnemonicAvx.i_vbroadcastf32x4. row_sim. }
row. { unfold MnemonicAvx32.i_vbroadcastf32x8, MnemonicAvx.i_vbroadcastf32x8. row_sim. }
row. { unfold MnemonicAvx32.i_vbroadcastf64x2, MnemonicAvx.i_vbroadcastf64x2. row_sim. }
row. { unfold MnemonicAvx32.i_vbroadcastf64x4, MnemonicAvx.i_vbroadcastf64x4. row_sim. }
row. { unfold MnemonicAvx32.i_vbroadcasti32x2, MnemonicAvx.i_vbroadcasti32x2. row_sim. }
row. { unfold MnemonicAvx32.i_vbroadcasti32x4, MnemonicAvx.i_vbroadcasti32x4. row_sim. }
apply Forall_nil. Qed.
Definition sims54 : list b_entry :=
  [mkB "vbroadcasti32x8" (fun v => let (o, a, r, n, e, s) := v in MnemonicAvx32.i_vbroadcasti32x8 (r 0) (o 1))
     (fun v => let (o, a, r, n, e, s) := v in MnemonicAvx.i_vbroadcasti32x8 (r 0) (widen_op (o 1)));
   mkB "vbroadcasti64x2" (fun v => let (o, a, r, n, e, s) := v in MnemonicAvx32.i_vbroadcasti64x2 (r 0) (o 1))
     (fun v => let (o, a, r, n, e, s) := v in MnemonicAvx.i_vbroadcasti64x2 (r 0) (widen_op (o 1)));
   mkB "vbroadcasti64x4" (fun v => let (o, a, r, n, e, s) := v in MnemonicAvx32.i_vbroadcasti64x4 (r 0) (o 1))
     (fun v => let (o, a, r, n, e, s) := v in MnemonicAvx.i_vbroadcasti64x4 (r 0) (widen_op (o 1)));
   mkB "vcmppd_kxoi" (fun v => let (o, a, r, n, e, s) := v in MnemonicAvx32.i_vcmppd_kxoi (r 0) (r 1) (o 2) (n 3))
     (fun v => let (o, a, r, n, e, s) := v in MnemonicAvx.i_vcmppd_kxoi (r 0) (r 1) (widen_op (o 2)) (n 3));
   mkB "vcmpeq_ospd_kxo" (fun v => let (o, a, r, n, e, s) := v in MnemonicAvx32.i_vcmpeq_ospd_kxo (r 0) (r 1) (o 2))
     (fun v => let (o, a, r, n, e, s) := v in MnemonicAvx.i_vcmpeq_ospd_kxo (r 0) (r 1) (widen_op (o 2)));
   mkB "vcmpps_kxoi" (fun v => let (o, a, r, n, e, s) := v in MnemonicAvx32.i_vcmpps_kxoi (r 0) (r 1) (o 2) (n 3))
     (fun v => let (o, a, r, n, e, s) := v in MnemonicAvx.i_vcmpps_kxoi (r 0) (r 1) (widen_op (o 2)) (n 3));
   mkB "vcmpeq_osps_kxo" (fun v => let (o, a, r, n, e, s) := v in MnemonicAvx32.i_vcmpeq_osps_kxo (r 0) (r 1) (o 2))
     (fun v => let (o, a, r, n, e, s) := v in MnemonicAvx.i_vcmpeq_osps_kxo (r 0) (r 1) (widen_op (o 2)));
   mkB "vcmpsd_kxoi" (fun v => let (o, a, r, n, e, s) := v in MnemonicAvx32.i_vcmpsd_kxoi (r 0) (r 1) (o 2) (n 3))
     (fun v => let (o, a, r, n, e, s) := v in MnemonicAvx.i_vcmpsd_kxoi (r 0) (r 1) (widen_op (o 2)) (n 3));
   mkB "vcmpeq_ossd_kxo" (fun v => let (o, a, r, n, e, s) := v in MnemonicAvx32.i_vcmpeq_ossd_kxo (r 0) (r 1) (o 2))
     (fun v => let (o, a, r, n, e, s) := v in MnemonicAvx.i_vcmpeq_ossd_kxo (r 0) (r 1) (widen_op (o 2)));
   mkB "vcmpss_kxoi" (fun v => let (o, a, r, n, e, s) := v in MnemonicAvx32.i_vcmpss_kxoi (r 0) (r 1) (o 2) (n 3))
     (fun v => let (o, a, r, n, e, s) := v in MnemonicAvx.i_vcmpss_kxoi (r 0) (r 1) (widen_op (o 2)) (n 3));
   mkB "vcmpeq_osss_kxo" (fun v => let (o, a, r, n, e, s) := v in MnemonicAvx32.i_vcmpeq_osss_kxo (r 0) (r 1) (o 2))
     (fun v => let (o, a, r, n, e, s) := v in MnemonicAvx.i_vcmpeq_osss_kxo (r 0) (r 1) (widen_op (o 2)));
   mkB "vcmpeq_uqpd_kxo" (fun v => let (o, a, r, n, e, s) := v in MnemonicAvx32.i_vcmpeq_uqpd_kxo (r 0) (r 1) (o 2))
     (fun v => let (o, a, r, n, e, s) := v in MnemonicAvx.i_vcmpeq_uqpd_kxo (r 0) (r 1) (widen_op (o 2)));
   mkB "vcmpeq_uqps_kxo" (fun v => let (o, a, r, n, e, s) := v in MnemonicAvx32.i_vcmpeq_uqps_kxo (r 0) (r 1) (o 2))
     (fun v => let (o, a, r, n, e, s) := v in MnemonicAvx.i_vcmpeq_uqps_kxo (r 0) (r 1) (widen_op (o 2)));
   mkB "vcmpeq_uqsd_kxo" (fun v => let (o, a, r, n, e, s) := v in MnemonicAvx32.i_vcmpeq_uqsd_kxo (r 0) (r 1) (o 2))
     (fun v => let (o, a, r, n, e, s) := v in MnemonicAvx.i_vcmpeq_uqsd_kxo (r 0) (r 1) (widen_op (o 2)));
   mkB "vcmpeq_uqss_kxo" (fun v => let (o, a, r, n, e, s) := v in MnemonicAvx32.i_vcmpeq_uqss_kxo (r 0) (r 1) (o 2))
     (fun v => let (o, a, r, n, e, s) := v in MnemonicAvx.i_vcmpeq_uqss_kxo (r 0) (r 1) (widen_op (o 2)));
   mkB "vcmpeq_uspd_kxo" (fun v => let (o, a, r, n, e, s) := v in MnemonicAvx32.i_vcmpeq_uspd_kxo (r 0) (r 1) (o 2))
     (fun v => let (o, a, r, n, e, s) := v in MnemonicAvx.i_vcmpeq_uspd_kxo (r 0) (r 1) (widen_op (o 2)));
   mkB "vcmpeq_usps_kxo" (fun v => let (o, a, r, n, e, s) := v in MnemonicAvx32.i_vcmpeq_usps_kxo (r 0) (r 1) (o 2))
     (fun v => let (o, a, r, n, e, s) := v in MnemonicAvx.i_vcmpeq_usps_kxo (r 0) (r 1) (widen_op (o 2)));
   mkB "vcmpeq_ussd_kxo" (fun v => let (o, a, r, n, e, s) := v in MnemonicAvx32.i_vcmpeq_ussd_kxo (r 0) (r 1) (o 2))
     (fun v => let (o, a, r, n, e, s) := v in MnemonicAvx.i_vcmpeq_ussd_kxo (r 0) (r 1) (widen_op (o 2)));
   mkB "vcmpeq_usss_kxo" (fun v => let (o, a, r, n, e, s) := v in MnemonicAvx32.i_vcmpeq_usss_kxo (r 0) (r 1) (o 2))
     (fun v => let (o, a, r, n, e, s) := v in MnemonicAvx.i_vcmpeq_usss_kxo (r 0) (r 1) (widen_op (o 2)));
   mkB "vcmpeqpd_kxo" (fun v => let (o, a, r, n, e, s) := v in MnemonicAvx32.i_vcmpeqpd_kxo (r 0) (r 1) (o 2))
     (fun v => let (o, a, r, n, e, s) := v in MnemonicAvx.i_vcmpeqpd_kxo (r 0) (r 1) (widen_op (o 2)));
   mkB "vcmpeqps_kxo" (fun v => let (o, a, r, n, e, s) := v in MnemonicAvx32.i_vcmpeqps_kxo (r 0) (r 1) (o 2))
     (fun v => let (o, a, r, n, e, s) := v in MnemonicAvx.i_vcmpeqps_kxo (r 0) (r 1) (widen_op (o 2)));
   mkB "vcmpeqsd_kxo" (fun v => let (o, a, r, n, e, s) := v in MnemonicAvx32.i_vcmpeqsd_kxo (r 0) (r 1) (o 2))
     (fun v => let (o, a, r, n, e, s) := v in MnemonicAvx.i_vcmpeqsd_kxo (r 0) (r 1) (widen_op (o 2)));
   mkB "vcmpeqss_kxo" (fun v => let (o, a, r, n, e, s) := v in MnemonicAvx32.i_vcmpeqss_kxo (r 0) (r 1) (o 2))
     (fun v => let (o, a, r, n, e, s) := v in MnemonicAvx.i_vcmpeqss_kxo (r 0) (r 1) (widen_op (o 2)));
   mkB "vcmpfalse_ospd_kxo" (fun v => let (o, a, r, n, e, s) := v in MnemonicAvx32.i_vcmpfalse_ospd_kxo (r 0) (r 1) (o 2))
     (fun v => let (o, a, r, n, e, s) := v in MnemonicAvx.i_vcmpfalse_ospd_kxo (r 0) (r 1) (widen_op (o 2)));
   mkB "vcmpfalse_osps_kxo" (fun v => let (o, a, r, n, e, s) := v in MnemonicAvx32.i_vcmpfalse_osps_kxo (r 0) (r 1) (o 2))
     (fun v => let (o, a, r, n, e, s) := v in MnemonicAvx.i_vcmpfalse_osps_kxo (r 0) (r 1) (widen_op (o 2)))].
Lemma sims54_ok : Forall same sims54.
Proof. unfold sims54.
row. { unfold MnemonicAvx32.i_vbroadcasti32x8, MnemonicAvx.i_vbroadcasti32x8. row_sim. }
row. { unfold MnemonicAvx32.i_vbroadcasti64x2, MnemonicAvx.i_vbroadcasti64x2. row_sim. }
row. { unfold MnemonicAvx32.i_vbroadcasti64x4, MnemonicAvx.i_vbroadcasti64x4. row_sim. }
row. { unfold MnemonicAvx32.i_vcmppd_kxoi, MnemonicAvx.i_vcmppd_kxoi. row_sim. }
row. { unfold MnemonicAvx32.i_vcmpeq_ospd_kxo, MnemonicAvx32.i_vcmppd_kxoi, MnemonicAvx.i_vcmpeq_ospd_kxo, MnemonicAvx.i_vcmppd_kxoi. row_sim. }
row. { unfold MnemonicAvx32.i_vcmpps_kxoi, MnemonicAvx.i_vcmpps_kxoi. row_sim. }
row. { unfold MnemonicAvx32.i_vcmpeq_osps_kxo, MnemonicAvx32.i_vcmpps_kxoi, MnemonicAvx.i_vcmpeq_osps_kxo, MnemonicAvx.i_vcmpps_kxoi. row_sim. }
row. { unfold MnemonicAvx32.i_vcmpsd_kxoi, MnemonicAvx.i_vcmpsd_kxoi. row_sim. }
row. { unfold MnemonicAvx32.i_vcmpeq_ossd_kxo, MnemonicAvx32.i_vcmpsd_kxoi, MnemonicAvx.i_vcmpeq_ossd_kxo, MnemonicAvx.i_vcmpsd_kxoi. row_sim. }
row. { unfold MnemonicAvx32.i_vcmpss_kxoi, MnemonicAvx.i_vcmpss_kxoi. row_sim. }
row. { unfold MnemonicAvx32.i_vcmpeq_osss_kxo, MnemonicAvx32.i_vcmpss_kxoi, MnemonicAvx.i_vcmpeq_osss_kxo, MnemonicAvx.i_vcmpss_kxoi. row_sim. }
row. { unfold MnemonicAvx32.i_vcmpeq_uqpd_kxo, MnemonicAvx32.i_vcmppd_kxoi, MnemonicAvx.i_vcmpeq_uqpd_kxo, MnemonicAvx.i_vcmppd_kxoi. row_sim. }
row. { unfold MnemonicAvx32.i_vcmpeq_uqps_kxo, MnemonicAvx32.i_vcmpps_kxoi, MnemonicAvx.i_vcmpeq_uqps_kxo, MnemonicAvx.i_vcmpps_kxoi. row_sim. }
row. { unfold MnemonicAvx32.i_vcmpeq_uqsd_kxo, MnemonicAvx32.i_vcmpsd_kxoi, MnemonicAvx.i_vcmpeq_uqsd_kxo, MnemonicAvx.i_vcmpsd_kxoi. row_sim. }
row. { unfold MnemonicAvx32.i_vcmpeq_uqss_kxo, MnemonicAvx32.i_vcmpss_kxoi, MnemonicAvx.i_vcmpeq_uqss_kxo, MnemonicAvx.i_vcmpss_kxoi. row_sim. }
row. { unfold MnemonicAvx32.i_vcmpeq_uspd_kxo, MnemonicAvx32.i_vcmppd_kxoi, MnemonicAvx.i_vcmpeq_uspd_kxo, MnemonicAvx.i_vcmppd_kxoi. row_sim. }
row. { unfold MnemonicAvx32.i_vcmpeq_usps_kxo, MnemonicAvx32.i_vcmpps_kxoi, MnemonicAvx.i_vcmpeq_usps_kxo, MnemonicAvx.i_vcmpps_kxoi. row_sim. }
row. { unfold MnemonicAvx32.i_vcmpeq_ussd_kxo, MnemonicAvx32.i_vcmpsd_kxoi, MnemonicAvx.i_vcmpeq_ussd_kxo, MnemonicAvx.i_vcmpsd_kxoi. row_sim. }
row. { unfold MnemonicAvx32.i_vcmpeq_usss_kxo, MnemonicAvx32.i_vcmpss_kxoi, MnemonicAvx.i_vcmpeq_usss_kxo, MnemonicAvx.i_vcmpss_kxoi. row_sim. }
row. { unfold MnemonicAvx32.i_vcmpeqpd_kxo, MnemonicAvx32.i_vcmppd_kxoi, MnemonicAvx.i_vcmpeqpd_kxo, MnemonicAvx.i_vcmppd_kxoi. row_sim. }
row. { unfold MnemonicAvx32.i_vcmpeqps_kxo, MnemonicAvx32.i_vcmpps_kxoi, MnemonicAvx.i_vcmpeqps_kxo, MnemonicAvx.i_vcmpps_kxoi. row_sim. }
row. { unfold MnemonicAvx32.i_vcmpeqsd_kxo, MnemonicAvx32.i_vcmpsd_kxoi, MnemonicAvx.i_vcmpeqsd_kxo, MnemonicAvx.i_vcmpsd_kxoi. row_sim. }
row. { unfold MnemonicAvx32.i_vcmpeqss_kxo, MnemonicAvx32.i_vcmpss_kxoi, MnemonicAvx.i_vcmpeqss_kxo, MnemonicAvx.i_vcmpss_kxoi. row_sim. }
row. { unfold MnemonicAvx32.i_vcmpfalse_ospd_kxo, MnemonicAvx32.i_vcmppd_kxoi, MnemonicAvx.i_vcmpfalse_ospd_kxo, MnemonicAvx.i_vcmppd_kxoi. row_sim. }
row. { unfold MnemonicAvx32.i_vcmpfalse_osps_kxo, MnemonicAvx32.i_vcmpps_kxoi, MnemonicAvx.i_vcmpfalse_osps_kxo, MnemonicAvx.i_vcmpps_kxoi. row_sim. }
apply Forall_nil. Qed.
Definition sims55 : list b_entry :=
  [mkB "vcmpfalse_ossd_kxo" (fun v => let (o, a, r, n, e, s) := v in MnemonicAvx32.i_vcmpfalse_ossd_kxo (r 0) (r 1) (o 2))
     (fun v => let (o, a, r, n, e, s) := v in MnemonicAvx.i_vcmpfalse_ossd_kxo (r 0) (r 1) (widen_op (o 2)));
   mkB "vcmpfalse_osss_kxo" (fun v => let (o, a, r, n, e, s) := v in MnemonicAvx32.i_vcmpfalse_osss_kxo (r 0) (r 1) (o 2))
     (fun v => let (o, a, r, n, e, s) := v in MnemonicAvx.i_vcmpfalse_osss_kxo (r 0) (r 1) (widen_op (o 2)));
   mkB "vcmpfalsepd_kxo" (fun v => let (o, a, r, n, e, s) := v in MnemonicAvx32.i_vcmpfalsepd_kxo (r 0) (r 1) (o 2))
     (fun v => let (o, a, r, n, e, s) := v in MnemonicAvx.i_vcmpfalsepd_kxo (r 0) (r 1) (widen_op (o 2)));
   mkB "vcmpfalseps_kxo" (fun v => let (o, a, r, n, e, s) := v in MnemonicAvx32.i_vcmpfalseps_kxo (r 0) (r 1) (o 2))
     (fun v => let (o, a, r, n, e, s) := v in MnemonicAvx.i_vcmpfalseps_kxo (r 0) (r 1) (widen_op (o 2)));
   mkB "vcmpfalsesd_kxo" (fun v => let (o, a, r, n, e, s) := v in MnemonicAvx32.i_vcmpfalsesd_kxo (r 0) (r 1) (o 2))
     (fun v => let (o, a, r, n, e, s) := v in MnemonicAvx.i_vcmpfalsesd_kxo (r 0) (r 1) (widen_op (o 2)));
   mkB "vcmpfalsess_kxo" (fun v => let (o, a, r, n, e, s) := v in MnemonicAvx32.i_vcmpfalsess_kxo (r 0) (r 1) (o 2))
     (fun v => let (o, a, r, n, e, s) := v in MnemonicAvx.i_vcmpfalsess_kxo (r 0) (r 1) (widen_op (o 2)));
   mkB "vcmpge_oqpd_kxo" (fun v => let (o, a, r, n, e, s) := v in MnemonicAvx32.i_vcmpge_oqpd_kxo (r 0) (r 1) (o 2))
     (fun v => let (o, a, r, n, e, s) := v in MnemonicAvx.i_vcmpge_oqpd_kxo (r 0) (r 1) (widen_op (o 2)));
   mkB "vcmpge_oqps_kxo" (fun v => let (o, a, r, n, e, s) := v in MnemonicAvx32.i_vcmpge_oqps_kxo (r 0) (r 1) (o 2))
     (fun v => let (o, a, r, n, e, s) := v in MnemonicAvx.i_vcmpge_oqps_kxo (r 0) (r 1) (widen_op (o 2)));
   mkB "vcmpge_oqsd_kxo" (fun v => let (o, a, r, n, e, s) := v in MnemonicAvx32.i_vcmpge_oqsd_kxo (r 0) (r 1) (o 2))
     (fun v => let (o, a, r, n, e, s) := v in MnemonicAvx.i_vcmpge_oqsd_kxo (r 0) (r 1) (widen_op (o 2)));
   mkB "vcmpge_oqss_kxo" (fun v => let (o, a, r, n, e, s) := v in MnemonicAvx32.i_vcmpge_oqss_kxo (r 0) (r 1) (o 2))
     (fun v => let (o, a, r, n, e, s) := v in MnemonicAvx.i_vcmpge_oqss_kxo (r 0) (r 1) (widen_op (o 2)));
   mkB "vcmpgepd_kxo" (fun v => let (o, a, r, n, e, s) := v in MnemonicAvx32.i_vcmpgepd_kxo (r 0) (r 1) (o 2))
     (fun v => let (o, a, r, n, e, s) := v in MnemonicAvx.i_vcmpgepd_kxo (r 0) (r 1) (widen_op (o 2)));
   mkB "vcmpgeps_kxo" (fun v => let (o, a, r, n, e, s) := v in MnemonicAvx32.i_vcmpgeps_kxo (r 0) (r 1) (o 2))
     (fun v => let (o, a, r, n, e, s) := v in MnemonicAvx.i_vcmpgeps_kxo (r 0) (r 1) (widen_op (o 2)));
   mkB "vcmpgesd_kxo" (fun v => let (o, a, r, n, e, s) := v in MnemonicAvx32.i_vcmpgesd_kxo (r 0) (r 1) (o 2))
     (fun v => let (o, a, r, n, e, s) := v in MnemonicAvx.i_vcmpgesd_kxo (r 0) (r 1) (widen_op (o 2)));
   mkB "vcmpgess_kxo" (fun v => let (o, a, r, n, e, s) := v in MnemonicAvx32.i_vcmpgess_kxo (r 0) (r 1) (o 2))
     (fun v => let (o, a, r, n, e, s) := v in MnemonicAvx.i_vcmpgess_kxo (r 0) (r 1) (widen_op (o 2)));
   mkB "vcmpgt_oqpd_kxo" (fun v => let (o, a, r, n, e, s) := v in MnemonicAvx32.i_vcmpgt_oqpd_kxo (r 0) (r 1) (o 2))
     (fun v => let (o, a, r, n, e, s) := v in MnemonicAvx.i_vcmpgt_oqpd_kxo (r 0) (r 1) (widen_op (o 2)));
   mkB "vcmpgt_oqps_kxo" (fun v => let (o, a, r, n, e, s) := v in MnemonicAvx32.i_vcmpgt_oqps_kxo (r 0) (r 1) (o 2))
     (fun v => let (o, a, r, n, e, s) := v in MnemonicAvx.i_vcmpgt_oqps_kxo (r 0) (r 1) (widen_op (o 2)));
   mkB "vcmpgt_oqsd_kxo" (fun v => let (o, a, r, n, e, s) := v in MnemonicAvx32.i_vcmpgt_oqsd_kxo (r 0) (r 1) (o 2))
     (fun v => let (o, a, r, n, e, s) := v in MnemonicAvx.i_vcmpgt_oqsd_kxo (r 0) (r 1) (widen_op (o 2)));
   mkB "vcmpgt_oqss_kxo" (fun v => let (o, a, r, n, e, s) := v in MnemonicAvx32.i_vcmpgt_oqss_kxo (r 0) (r 1) (o 2))
     (fun v => let (o, a, r, n, e, s) := v in MnemonicAvx.i_vcmpgt_oqss_kxo (r 0) (r 1) (widen_op (o 2)));
   mkB "vcmpgtpd_kxo" (fun v => let (o, a, r, n, e, s) := v in MnemonicAvx32.i_vcmpgtpd_kxo (r 0) (r 1) (o 2))
     (fun v => let (o, a, r, n, e, s) := v in MnemonicAvx.i_vcmpgtpd_kxo (r 0) (r 1) (widen_op (o 2)));
   mkB "vcmpgtps_kxo" (fun v => let (o, a, r, n, e, s) := v in MnemonicAvx32.i_vcmpgtps_kxo (r 0) (r 1) (o 2))
     (fun v => let (o, a, r, n, e, s) := v in MnemonicAvx.i_vcmpgtps_kxo (r 0) (r 1) (widen_op (o 2)));
   mkB "vcmpgtsd_kxo" (fun v => let (o, a, r, n, e, s) := v in MnemonicAvx32.i_vcmpgtsd_kxo (r 0) (r 1) (o 2))
     (fun v => let (o, a, r, n, e, s) := v in MnemonicAvx.i_vcmpgtsd_kxo (r 0) (r 1) (widen_op (o 2)));
   mkB "vcmpgtss_kxo" (fun v => let (o, a, r, n, e, s) := v in MnemonicAvx32.i_vcmpgtss_kxo (r 0) (r 1) (o 2))
     (fun v => let (o, a, r, n, e, s) := v in MnemonicAvx.i_vcmpgtss_kxo (r 0) (r 1) (widen_op (o 2)));
   mkB "vcmple_oqpd_kxo" (fun v => let (o, a, r, n, e, s) := v in MnemonicAvx32.i_vcmple_oqpd_kxo (r 0) (r 1) (o 2))
     (fun v => let (o, a, r, n, e, s) := v in MnemonicAvx.i_vcmple_oqpd_kxo (r 0) (r 1) (widen_op (o 2)));
   mkB "vcmple_oqps_kxo" (fun v => let (o, a, r, n, e, s) := v in MnemonicAvx32.i_vcmple_oqps_kxo (r 0) (r 1) (o 2))
     (fun v => let (o, a, r, n, e, s) := v in MnemonicAvx.i_vcmple_oqps_kxo (r 0) (r 1) (widen_op (o 2)));
   mkB "vcmple_oqsd_kxo" (fun v => let (o, a, r, n, e, s) := v in MnemonicAvx32.i_vcmple_oqsd_kxo (r 0) (r 1) (o 2))
     (fun v => let (o, a, r, n, e, s) := v in MnemonicAvx.i_vcmple_oqsd_kxo (r 0) (r 1) (widen_op (o 2)))].
Lemma sims55_ok : Forall same sims55.
Proof. unfold sims55.
row. { unfold MnemonicAvx32.i_vcmpfalse_ossd_kxo, MnemonicAvx32.i_vcmpsd_kxoi, MnemonicAvx.i_vcmpfalse_ossd_kxo, MnemonicAvx.i_vcmpsd_kxoi. row_sim. }
row. { unfold MnemonicAvx32.i_vcmpfalse_osss_kxo, MnemonicAvx32.i_vcmpss_kxoi, MnemonicAvx.i_vcmpfalse_osss_kxo, MnemonicAvx.i_vcmpss_kxoi. row_sim. }
row. { unfold MnemonicAvx32.i_vcmpfalsepd_kxo, MnemonicAvx32.i_vcmppd_kxoi, MnemonicAvx.i_vcmpfalsepd_kxo, MnemonicAvx.i_vcmppd_kxoi. row_sim. }
row. { unfold MnemonicAvx32.i_vcmpfalseps_kxo, MnemonicAvx32.i_vcmpps_kxoi, MnemonicAvx.i_vcmpfalseps_kxo, MnemonicAvx.i_vcmpps_kxoi. row_sim. }
row. { unfold MnemonicAvx32.i_vcmpfalsesd_kxo, MnemonicAvx32.i_vcmpsd_kxoi, MnemonicAvx.i_vcmpfalsesd_kxo, MnemonicAvx.i_vcmpsd_kxoi. row_sim. }
row. { unfold MnemonicAvx32.i_vcmpfalsess_kxo, MnemonicAvx32.i_vcmpss_kxoi, MnemonicAvx.i_vcmpfalsess_kxo, MnemonicAvx.i_vcmpss_kxoi. row_sim. }
row. { unfold MnemonicAvx32.i_vcmpge_oqpd_kxo, MnemonicAvx32.i_vcmppd_kxoi, MnemonicAvx.i_vcmpge_oqpd_kxo, MnemonicAvx.i_vcmppd_kxoi. row_sim. }
row. { unfold MnemonicAvx32.i_vcmpge_oqps_kxo, MnemonicAvx32.i_vcmpps_kxoi, MnemonicAvx.i_vcmpge_oqps_kxo, MnemonicAvx.i_vcmpps_kxoi. row_sim. }
row. { unfold MnemonicAvx32.i_vcmpge_oqsd_kxo, MnemonicAvx32.i_vcmpsd_kxoi, MnemonicAvx.i_vcmpge_oqsd_kxo, MnemonicAvx.i_vcmpsd_kxoi. row_sim. }
row. { unfold MnemonicAvx32.i_vcmpge_oqss_kxo, MnemonicAvx32.i_vcmpss_kxoi, MnemonicAvx.i_vcmpge_oqss_kxo, MnemonicAvx.i_vcmpss_kxoi. row_sim. }
row. { unfold MnemonicAvx32.i_vcmpgepd_kxo, MnemonicAvx32.i_vcmppd_kxoi, MnemonicAvx.i_vcmpgepd_kxo, MnemonicAvx.i_vcmppd_kxoi. row_sim. }
row. { unfold MnemonicAvx32.i_vcmpgeps_kxo, MnemonicAvx32.i_vcmpps_kxoi, MnemonicAvx.i_vcmpgeps_kxo, MnemonicAvx.i_vcmpps_kxoi. row_sim. }
row. { unfold MnemonicAvx32.i_vcmpgesd_kxo, MnemonicAvx32.i_vcmpsd_kxoi, MnemonicAvx.i_vcmpgesd_kxo, MnemonicAvx.i_vcmpsd_kxoi. row_sim. }
row. { unfold MnemonicAvx32.i_vcmpgess_kxo, MnemonicAvx32.i_vcmpss_kxoi, MnemonicAvx.i_vcmpgess_kxo, MnemonicAvx.i_vcmpss_kxoi. row_sim. }
row. { unfold MnemonicAvx32.i_vcmpgt_oqpd_kxo, MnemonicAvx32.i_vcmppd_kxoi, MnemonicAvx.i_vcmpgt_oqpd_kxo, MnemonicAvx.i_vcmppd_kxoi. row_sim. }
row. { unfold MnemonicAvx32.i_vcmpgt_oqps_kxo, MnemonicAvx32.i_vcmpps_kxoi, MnemonicAvx.i_vcmpgt_oqps_kxo, MnemonicAvx.i_vcmpps_kxoi. row_sim. }
row. { unfold MnemonicAvx32.i_vcmpgt_oqsd_kxo, MnemonicAvx32.i_vcmpsd_kxoi, MnemonicAvx.i_vcmpgt_oqsd_kxo, MnemonicAvx.i_vcmpsd_kxoi. row_sim. }
row. { unfold MnemonicAvx32.i_vcmpgt_oqss_kxo, MnemonicAvx32.i_vcmpss_kxoi, MnemonicAvx.i_vcmpgt_oqss_kxo, MnemonicAvx.i_vcmpss_kxoi. row_sim. }
row. { unfold MnemonicAvx32.i_vcmpgtpd_kxo, MnemonicAvx32.i_vcmppd_kxoi, MnemonicAvx.i_vcmpgtpd_kxo, MnemonicAvx.i_vcmppd_kxoi. row_sim. }
row. { unfold MnemonicAvx32.i_vcmpgtps_kxo, MnemonicAvx32.i_vcmpps_kxoi, MnemonicAvx.i_vcmpgtps_kxo, MnemonicAvx.i_vcmpps_kxoi. row_sim. }
row. { unfold MnemonicAvx32.i_vcmpgtsd_kxo, MnemonicAvx32.i_vcmpsd_kxoi, MnemonicAvx.i_vcmpgtsd_kxo, MnemonicAvx.i_vcmpsd_kxoi. row_sim. }
row. { unfold MnemonicAvx32.i_vcmpgtss_kxo, MnemonicAvx32.i_vcmpss_kxoi, MnemonicAvx.i_vcmpgtss_kxo, MnemonicAvx.i_vcmpss_kxoi. row_sim. }
row. { unfold MnemonicAvx32.i_vcmple_oqpd_kxo, MnemonicAvx32.i_vcmppd_kxoi, MnemonicAvx.i_vcmple_oqpd_kxo, MnemonicAvx.i_vcmppd_kxoi. row_sim. }
row. { unfold MnemonicAvx32.i_vcmple_oqps_kxo, MnemonicAvx32.i_vcmpps_kxoi, MnemonicAvx.i_vcmple_oqps_kxo, MnemonicAvx.i_vcmpps_kxoi. row_sim. }
row. { unfold MnemonicAvx32.i_vcmple_oqsd_kxo, MnemonicAvx32.i_vcmpsd_kxoi, MnemonicAvx.i_vcmple_oqsd_kxo, MnemonicAvx.i_vcmpsd_kxoi. row_sim. }
apply Forall_nil. Qed.
Definition sims56 : list b_entry :=
  [mkB "vcmple_oqss_kxo" (fun v => let (o, a, r, n, e, s) := v in MnemonicAvx32.i_vcmple_oqss_kxo (r 0) (r 1) (o 2))
     (fun v => let (o, a, r, n, e, s) := v in MnemonicAvx.i_vcmple_oqss_kxo (r 0) (r 1) (widen_op (o 2)));
   mkB "vcmplepd_kxo" (fun v => let (o, a, r, n, e, s) := v in MnemonicAvx32.i_vcmplepd_kxo (r 0) (r 1) (o 2))
     (fun v => let (o, a, r, n, e, s) := v in MnemonicAvx.i_vcmplepd_kxo (r 0) (r 1) (widen_op (o 2)));
   mkB "vcmpleps_kxo" (fun v => let (o, a, r, n, e, s) := v in MnemonicAvx32.i_vcmpleps_kxo (r 0) (r 1) (o 2))
     (fun v => let (o, a, r, n, e, s) := v in MnemonicAvx.i_vcmpleps_kxo (r 0) (r 1) (widen_op (o 2)));
   mkB "vcmplesd_kxo" (fun v => let (o, a, r, n, e, s) := v in MnemonicAvx32.i_vcmplesd_kxo (r 0) (r 1) (o 2))
     (fun v => let (o, a, r, n, e, s) := v in MnemonicAvx.i_vcmplesd_kxo (r 0) (r 1) (widen_op (o 2)));
   mkB "vcmpless_kxo" (fun v => let (o, a, r, n, e, s) := v in MnemonicAvx32.i_vcmpless_kxo (r 0) (r 1) (o 2))
     (fun v => let (o, a, r, n, e, s) := v in MnemonicAvx.i_vcmpless_kxo (r 0) (r 1) (widen_op (o 2)));
   mkB "vcmplt_oqpd_kxo" (fun v => let (o, a, r, n, e, s) := v in MnemonicAvx32.i_vcmplt_oqpd_kxo (r 0) (r 1) (o 2))
     (fun v => let (o, a, r, n, e, s) := v in MnemonicAvx.i_vcmplt_oqpd_kxo (r 0) (r 1) (widen_op (o 2)));
   mkB "vcmplt_oqps_kxo" (fun v => let (o, a, r, n, e, s) := v in MnemonicAvx32.i_vcmplt_oqps_kxo (r 0) (r 1) (o 2))
     (fun v => let (o, a, r, n, e, s) := v in MnemonicAvx.i_vcmplt_oqps_kxo (r 0) (r 1) (widen_op (o 2)));
   mkB "vcmplt_oqsd_kxo" (fun v => let (o, a, r, n, e, s) := v in MnemonicAvx32.i_vcmplt_oqsd_kxo (r 0) (r 1) (o 2))
     (fun v => let (o, a, r, n, e, s) := v in MnemonicAvx.i_vcmplt_oqsd_kxo (r 0) (r 1) (widen_op (o 2)));
   mkB "vcmplt_oqss_kxo" (fun v => let (o, a, r, n, e, s) := v in MnemonicAvx32.i_vcmplt_oqss_kxo (r 0) (r 1) (o 2))
     (fun v => let (o, a, r, n, e, s) := v in MnemonicAvx.i_vcmplt_oqss_kxo (r 0) (r 1) (widen_op (o 2)));
   mkB "vcmpltpd_kxo" (fun v => let (o, a, r, n, e, s) := v in MnemonicAvx32.i_vcmpltpd_kxo (r 0) (r 1) (o 2))
     (fun v => let (o, a, r, n, e, s) := v in MnemonicAvx.i_vcmpltpd_kxo (r 0) (r 1) (widen_op (o 2)));
   mkB "vcmpltps_kxo" (fun v => let (o, a, r, n, e, s) := v in MnemonicAvx32.i_vcmpltps_kxo (r 0) (r 1) (o 2))
     (fun v => let (o, a, r, n, e, s) := v in MnemonicAvx.i_vcmpltps_kxo (r 0) (r 1) (widen_op (o 2)));
   mkB "vcmpltsd_kxo" (fun v => let (o, a, r, n, e, s) := v in MnemonicAvx32.i_vcmpltsd_kxo (r 0) (r 1) (o 2))
     (fun v => let (o, a, r, n, e, s) := v in MnemonicAvx.i_vcmpltsd_kxo (r 0) (r 1) (widen_op (o 2)));
   mkB "vcmpltss_kxo" (fun v => let (o, a, r, n, e, s) := v in MnemonicAvx32.i_vcmpltss_kxo (r 0) (r 1) (o 2))
     (fun v => let (o, a, r, n, e, s) := v in MnemonicAvx.i_vcmpltss_kxo (r 0) (r 1) (widen_op (o 2)));
   mkB "vcmpneq_oqpd_kxo" (fun v => let (o, a, r, n, e, s) := v in MnemonicAvx32.i_vcmpneq_oqpd_kxo (r 0) (r 1) (o 2))
     (fun v => let (o, a, r, n, e, s) := v in MnemonicAvx.i_vcmpneq_oqpd_kxo (r 0) (r 1) (widen_op (o 2)));
   mkB "vcmpneq_oqps_kxo" (fun v => let (o, a, r, n, e, s) := v in MnemonicAvx32.i_vcmpneq_oqps_kxo (r 0) (r 1) (o 2))
     (fun v => let (o, a, r, n, e, s) := v in MnemonicAvx.i_vcmpneq_oqps_kxo (r 0) (r 1) (widen_op (o 2)));
   mkB "vcmpneq_oqsd_kxo" (fun v => let (o, a, r, n, e, s) := v in MnemonicAvx32.i_vcmpneq_oqsd_kxo (r 0) (r 1) (o 2))
     (fun v => let (o, a, r, n, e, s) := v in MnemonicAvx.i_vcmpneq_oqsd_kxo (r 0) (r 1) (widen_op (o 2)));
   mkB "vcmpneq_oqss_kxo" (fun v => let (o, a, r, n, e, s) := v in MnemonicAvx32.i_vcmpneq_oqss_kxo (r 0) (r 1) (o 2))
     (fun v => let (o, a, r, n, e, s) := v in MnemonicAvx.i_vcmpneq_oqss_kxo (r 0) (r 1) (widen_op (o 2)));
   mkB "vcmpneq_ospd_kxo" (fun v => let (o, a, r, n, e, s) := v in MnemonicAvx32.i_vcmpneq_ospd_kxo (r 0) (r 1) (o 2))
     (fun v => let (o, a, r, n, e, s) := v in MnemonicAvx.i_vcmpneq_ospd_kxo (r 0) (r 1) (widen_op (o 2)));
   mkB "vcmpneq_osps_kxo" (fun v => let (o, a, r, n, e, s) := v in MnemonicAvx32.i_vcmpneq_osps_kxo (r 0) (r 1) (o 2))
     (fun v => let (o, a, r, n, e, s) := v in MnemonicAvx.i_vcmpneq_osps_kxo (r 0) (r 1) (widen_op (o 2)));
   mkB "vcmpneq_ossd_kxo" (fun v => let (o, a, r, n, e, s) := v in MnemonicAvx32.i_vcmpneq_ossd_kxo (r 0) (r 1) (o 2))
     (fun v => let (o, a, r, n, e, s) := v in MnemonicAvx.i_vcmpneq_ossd_kxo (r 0) (r 1) (widen_op (o 2)));
   mkB "vcmpneq_osss_kxo" (fun v => let (o, a, r, n, e, s) := v in MnemonicAvx32.i_vcmpneq_osss_kxo (r 0) (r 1) (o 2))
     (fun v => let (o, a, r, n, e, s) := v in MnemonicAvx.i_vcmpneq_osss_kxo (r 0) (r 1) (widen_op (o 2)));
   mkB "vcmpneq_uspd_kxo" (fun v => let (o, a, r, n, e, s) := v in MnemonicAvx32.i_vcmpneq_uspd_kxo (r 0) (r 1) (o 2))
     (fun v => let (o, a, r, n, e, s) := v in MnemonicAvx.i_vcmpneq_uspd_kxo (r 0) (r 1) (widen_op (o 2)));
   mkB "vcmpneq_usps_kxo" (fun v => let (o, a, r, n, e, s) := v in MnemonicAvx32.i_vcmpneq_usps_kxo (r 0) (r 1) (o 2))
     (fun v => let (o, a, r, n, e, s) := v in MnemonicAvx.i_vcmpneq_usps_kxo (r 0) (r 1) (widen_op (o 2)));
   mkB "vcmpneq_ussd_kxo" (fun v => let (o, a, r, n, e, s) := v in MnemonicAvx32.i_vcmpneq_ussd_kxo (r 0) (r 1) (o 2))
     (fun v => let (o, a, r, n, e, s) := v in MnemonicAvx.i_vcmpneq_ussd_kxo (r 0) (r 1) (widen_op (o 2)));
   mkB "vcmpneq_usss_kxo" (fun v => let (o, a, r, n, e, s) := v in MnemonicAvx32.i_vcmpneq_usss_kxo (r 0) (r 1) (o 2))
     (fun v => let (o, a, r, n, e, s) := v in MnemonicAvx.i_vcmpneq_usss_kxo (r 0) (r 1) (widen_op (o 2)))].
Lemma sims56_ok : Forall same sims56.
Proof. unfold sims56.
row. { unfold MnemonicAvx32.i_vcmple_oqss_kxo, MnemonicAvx32.i_vcmpss_kxoi, MnemonicAvx.i_vcmple_oqss_kxo, MnemonicAvx.i_vcmpss_kxoi. row_sim. }
row. { unfold MnemonicAvx32.i_vcmplepd_kxo, MnemonicAvx32.i_vcmppd_kxoi, MnemonicAvx.i_vcmplepd_kxo, MnemonicAvx.i_vcmppd_kxoi. row_sim. }
row. { unfold MnemonicAvx32.i_vcmpleps_kxo, MnemonicAvx32.i_vcmpps_kxoi, MnemonicAvx.i_vcmpleps_kxo, MnemonicAvx.i_vcmpps_kxoi. row_sim. }
row. { unfold MnemonicAvx32.i_vcmplesd_kxo, MnemonicAvx32.i_vcmpsd_kxoi, MnemonicAvx.i_vcmplesd_kxo, MnemonicAvx.i_vcmpsd_kxoi. row_sim. }
row. { unfold MnemonicAvx32.i_vcmpless_kxo, MnemonicAvx32.i_vcmpss_kxoi, MnemonicAvx.i_vcmpless_kxo, MnemonicAvx.i_vcmpss_kxoi. row_sim. }
row. { unfold MnemonicAvx32.i_vcmplt_oqpd_kxo, MnemonicAvx32.i_vcmppd_kxoi, MnemonicAvx.i_vcmplt_oqpd_kxo, MnemonicAvx.i_vcmppd_kxoi. row_sim. }
row. { unfold MnemonicAvx32.i_vcmplt_oqps_kxo, MnemonicAvx32.i_vcmpps_kxoi, MnemonicAvx.i_vcmplt_oqps_kxo, MnemonicAvx.i_vcmpps_kxoi. row_sim. }
row. { unfold MnemonicAvx32.i_vcmplt_oqsd_kxo, MnemonicAvx32.i_vcmpsd_kxoi, MnemonicAvx.i_vcmplt_oqsd_kxo, MnemonicAvx.i_vcmpsd_kxoi. row_sim. }
row. { unfold MnemonicAvx32.i_vcmplt_oqss_kxo, MnemonicAvx32.i_vcmpss_kxoi, MnemonicAvx.i_vcmplt_oqss_kxo, MnemonicAvx.i_vcmpss_kxoi. row_sim. }
row. { unfold MnemonicAvx32.i_vcmpltpd_kxo, MnemonicAvx32.i_vcmppd_kxoi, MnemonicAvx.i_vcmpltpd_kxo, MnemonicAvx.i_vcmppd_kxoi. row_sim. }
row. { unfold MnemonicAvx32.i_vcmpltps_kxo, MnemonicAvx32.i_vcmpps_kxoi, MnemonicAvx.i_vcmpltps_kxo, MnemonicAvx.i_vcmpps_kxoi. row_sim. }
row. { unfold MnemonicAvx32.i_vcmpltsd_kxo, MnemonicAvx32.i_vcmpsd_kxoi, MnemonicAvx.i_vcmpltsd_kxo, MnemonicAvx.i_vcmpsd_kxoi. row_sim. }
row. { unfold MnemonicAvx32.i_vcmpltss_kxo, MnemonicAvx32.i_vcmpss_kxoi, MnemonicAvx.i_vcmpltss_kxo, MnemonicAvx.i_vcmpss_kxoi. row_sim. }
row. { unfold MnemonicAvx32.i_vcmpneq_oqpd_kxo, MnemonicAvx32.i_vcmppd_kxoi, MnemonicAvx.i_vcmpneq_oqpd_kxo, MnemonicAvx.i_vcmppd_kxoi. row_sim. }
row. { unfold MnemonicAvx32.i_vcmpneq_oqps_kxo, MnemonicAvx32.i_vcmpps_kxoi, MnemonicAvx.i_vcmpneq_oqps_kxo, MnemonicAvx.i_vcmpps_kxoi. row_sim. }
row. { unfold MnemonicAvx32.i_vcmpneq_oqsd_kxo, MnemonicAvx32.i_vcmpsd_kxoi, MnemonicAvx.i_vcmpneq_oqsd_kxo, MnemonicAvx.i_vcmpsd_kxoi. row_sim. }
row. { unfold MnemonicAvx32.i_vcmpneq_oqss_kxo, MnemonicAvx32.i_vcmpss_kxoi, MnemonicAvx.i_vcmpneq_oqss_kxo, MnemonicAvx.i_vcmpss_kxoi. row_sim. }
row. { unfold MnemonicAvx32.i_vcmpneq_ospd_kxo, MnemonicAvx32.i_vcmppd_kxoi, MnemonicAvx.i_vcmpneq_ospd_kxo, MnemonicAvx.i_vcmppd_kxoi. row_sim. }
row. { unfold MnemonicAvx32.i_vcmpneq_osps_kxo, MnemonicAvx32.i_vcmpps_kxoi, MnemonicAvx.i_vcmpneq_osps_kxo, MnemonicAvx.i_vcmpps_kxoi. row_sim. }
row. { unfold MnemonicAvx32.i_vcmpneq_ossd_kxo, MnemonicAvx32.i_vcmpsd_kxoi, MnemonicAvx.i_vcmpneq_ossd_kxo, MnemonicAvx.i_vcmpsd_kxoi. row_sim. }
row. { unfold MnemonicAvx32.i_vcmpneq_osss_kxo, MnemonicAvx32.i_vcmpss_kxoi, MnemonicAvx.i_vcmpneq_osss_kxo, MnemonicAvx.i_vcmpss_kxoi. row_sim. }
row. { unfold MnemonicAvx32.i_vcmpneq_uspd_kxo, MnemonicAvx32.i_vcmppd_kxoi, MnemonicAvx.i_vcmpneq_uspd_kxo, MnemonicAvx.i_vcmppd_kxoi. row_sim. }
row. { unfold MnemonicAvx32.i_vcmpneq_usps_kxo, MnemonicAvx32.i_vcmpps_kxoi, MnemonicAvx.i_vcmpneq_usps_kxo, MnemonicAvx.i_vcmpps_kxoi. row_sim. }
row. { unfold MnemonicAvx32.i_vcmpneq_ussd_kxo, MnemonicAvx32.i_vcmpsd_kxoi, MnemonicAvx.i_vcmpneq_ussd_kxo, MnemonicAvx.i_vcmpsd_kxoi. row_sim. }
row. { unfold MnemonicAvx32.i_vcmpneq_usss_kxo, MnemonicAvx32.i_vcmpss_kxoi, MnemonicAvx.i_vcmpneq_usss_kxo, MnemonicAvx.i_vcmpss_kxoi. row_sim. }
apply Forall_nil. Qed.
Definition sims57 : list b_entry :=
  [mkB "vcmpneqpd_kxo" (fun v => let (o, a, r, n, e, s) := v in MnemonicAvx32.i_vcmpneqpd_kxo (r 0) (r 1) (o 2))
     (fun v => let (o, a, r, n, e, s) := v in MnemonicAvx.i_vcmpneqpd_kxo (r 0) (r 1) (widen_op (o 2)));
   mkB "vcmpneqps_kxo" (fun v => let (o, a, r, n, e, s) := v in MnemonicAvx32.i_vcmpneqps_kxo (r 0) (r 1) (o 2))
     (fun v => let (o, a, r, n, e, s) := v in MnemonicAvx.i_vcmpneqps_kxo (r 0) (r 1) (widen_op (o 2)));
   mkB "vcmpneqsd_kxo" (fun v => let (o, a, r, n, e, s) := v in MnemonicAvx32.i_vcmpneqsd_kxo (r 0) (r 1) (o 2))
     (fun v => let (o, a, r, n, e, s) := v in MnemonicAvx.i_vcmpneqsd_kxo (r 0) (r 1) (widen_op (o 2)));
   mkB "vcmpneqss_kxo" (fun v => let (o, a, r, n, e, s) := v in MnemonicAvx32.i_vcmpneqss_kxo (r 0) (r 1) (o 2))
     (fun v => let (o, a, r, n, e, s) := v in MnemonicAvx.i_vcmpneqss_kxo (r 0) (r 1) (widen_op (o 2)));
   mkB "vcmpnge_uqpd_kxo" (fun v => let (o, a, r, n, e, s) := v in MnemonicAvx32.i_vcmpnge_uqpd_kxo (r 0) (r 1) (o 2))
     (fun v => let (o, a, r, n, e, s) := v in MnemonicAvx.i_vcmpnge_uqpd_kxo (r 0) (r 1) (widen_op (o 2)));
   mkB "vcmpnge_uqps_kxo" (fun v => let (o, a, r, n, e, s) := v in MnemonicAvx32.i_vcmpnge_uqps_kxo (r 0) (r 1) (o 2))
     (fun v => let (o, a, r, n, e, s) := v in MnemonicAvx.i_vcmpnge_uqps_kxo (r 0) (r 1) (widen_op (o 2)));
   mkB "vcmpnge_uqsd_kxo" (fun v => let (o, a, r, n, e, s) := v in MnemonicAvx32.i_vcmpnge_uqsd_kxo (r 0) (r 1) (o 2))
     (fun v => let (o, a, r, n, e, s) := v in MnemonicAvx.i_vcmpnge_uqsd_kxo (r 0) (r 1) (widen_op (o 2)));
   mkB "vcmpnge_uqss_kxo" (fun v => let (o, a, r, n, e, s) := v in MnemonicAvx32.i_vcmpnge_uqss_kxo (r 0) (r 1) (o 2))
     (fun v => let (o, a, r, n, e, s) := v in MnemonicAvx.i_vcmpnge_uqss_kxo (r 0) (r 1) (widen_op (o 2)));
   mkB "vcmpngepd_kxo" (fun v => let (o, a, r, n, e, s) := v in MnemonicAvx32.i_vcmpngepd_kxo (r 0) (r 1) (o 2))
     (fun v => let (o, a, r, n, e, s) := v in MnemonicAvx.i_vcmpngepd_kxo (r 0) (r 1) (widen_op (o 2)));
   mkB "vcmpngeps_kxo" (fun v => let (o, a, r, n, e, s) := v in MnemonicAvx32.i_vcmpngeps_kxo (r 0) (r 1) (o 2))
     (fun v => let (o, a, r, n, e, s) := v in MnemonicAvx.i_vcmpngeps_kxo (r 0) (r 1) (widen_op (o 2)));
   mkB "vcmpngesd_kxo" (fun v => let (o, a, r, n, e, s) := v in MnemonicAvx32.i_vcmpngesd_kxo (r 0) (r 1) (o 2))
     (fun v => let (o, a, r, n, e, s) := v in MnemonicAvx.i_vcmpngesd_kxo (r 0) (r 1) (widen_op (o 2)));
   mkB "vcmpngess_kxo" (fun v => let (o, a, r, n, e, s) := v in MnemonicAvx32.i_vcmpngess_kxo (r 0) (r 1) (o 2))
     (fun v => let (o, a, r, n, e, s) := v in MnemonicAvx.i_vcmpngess_kxo (r 0) (r 1) (widen_op (o 2)));
   mkB "vcmpngt_uqpd_kxo" (fun v => let (o, a, r, n, e, s) := v in MnemonicAvx32.i_vcmpngt_uqpd_kxo (r 0) (r 1) (o 2))
     (fun v => let (o, a, r, n, e, s) := v in MnemonicAvx.i_vcmpngt_uqpd_kxo (r 0) (r 1) (widen_op (o 2)));
   mkB "vcmpngt_uqps_kxo" (fun v => let (o, a, r, n, e, s) := v in MnemonicAvx32.i_vcmpngt_uqps_kxo (r 0) (r 1) (o 2))
     (fun v => let (o, a, r, n, e, s) := v in MnemonicAvx.i_vcmpngt_uqps_kxo (r 0) (r 1) (widen_op (o 2)));
   mkB "vcmpngt_uqsd_kxo" (fun v => let (o, a, r, n, e, s) := v in MnemonicAvx32.i_vcmpngt_uqsd_kxo (r 0) (r 1) (o 2))
     (fun v => let (o, a, r, n, e, s) := v in MnemonicAvx.i_vcmpngt_uqsd_kxo (r 0) (r 1) (widen_op (o 2)));
   mkB "vcmpngt_uqss_kxo" (fun v => let (o, a, r, n, e, s) := v in MnemonicAvx32.i_vcmpngt_uqss_kxo (r 0) (r 1) (o 2))
     (fun v => let (o, a, r, n, e, s) := v in MnemonicAvx.i_vcmpngt_uqss_kxo (r 0) (r 1) (widen_op (o 2)));
   mkB "vcmpngtpd_kxo" (fun v => let (o, a, r, n, e, s) := v in MnemonicAvx32.i_vcmpngtpd_kxo (r 0) (r 1) (o 2))
     (fun v => let (o, a, r, n, e, s) := v in MnemonicAvx.i_vcmpngtpd_kxo (r 0) (r 1) (widen_op (o 2)));
   mkB "vcmpngtps_kxo" (fun v => let (o, a, r, n, e, s) := v in MnemonicAvx32.i_vcmpngtps_kxo (r 0) (r 1) (o 2))
     (fun v => let (o, a, r, n, e, s) := v in MnemonicAvx.i_vcmpngtps_kxo (r 0) (r 1) (widen_op (o 2)));
   mkB "vcmpngtsd_kxo" (fun v => let (o, a, r, n, e, s) := v in MnemonicAvx32.i_vcmpngtsd_kxo (r 0) (r 1) (o 2))
     (fun v => let (o, a, r, n, e, s) := v in MnemonicAvx.i_vcmpngtsd_kxo (r 0) (r 1) (widen_op (o 2)));
   mkB "vcmpngtss_kxo" (fun v => let (o, a, r, n, e, s) := v in MnemonicAvx32.i_vcmpngtss_kxo (r 0) (r 1) (o 2))
     (fun v => let (o, a, r, n, e, s) := v in MnemonicAvx.i_vcmpngtss_kxo (r 0) (r 1) (widen_op (o 2)));
   mkB "vcmpnle_uqpd_kxo" (fun v => let (o, a, r, n, e, s) := v in MnemonicAvx32.i_vcmpnle_uqpd_kxo (r 0) (r 1) (o 2))
     (fun v => let (o, a, r, n, e, s) := v in MnemonicAvx.i_vcmpnle_uqpd_kxo (r 0) (r 1) (widen_op (o 2)));
   mkB "vcmpnle_uqps_kxo" (fun v => let (o, a, r, n, e, s) := v in MnemonicAvx32.i_vcmpnle_uqps_kxo (r 0) (r 1) (o 2))
     (fun v => let (o, a, r, n, e, s) := v in MnemonicAvx.i_vcmpnle_uqps_kxo (r 0) (r 1) (widen_op (o 2)));
   mkB "vcmpnle_uqsd_kxo" (fun v => let (o, a, r, n, e, s) := v in MnemonicAvx32.i_vcmpnle_uqsd_kxo (r 0) (r 1) (o 2))
     (fun v => let (o, a, r, n, e, s) := v in MnemonicAvx.i_vcmpnle_uqsd_kxo (r 0) (r 1) (widen_op (o 2)));
   mkB "vcmpnle_uqss_kxo" (fun v => let (o, a, r, n, e, s) := v in MnemonicAvx32.i_vcmpnle_uqss_kxo (r 0) (r 1) (o 2))
     (fun v => let (o, a, r, n, e, s) := v in MnemonicAvx.i_vcmpnle_uqss_kxo (r 0) (r 1) (widen_op (o 2)));
   mkB "vcmpnlepd_kxo" (fun v => let (o, a, r, n, e, s) := v in MnemonicAvx32.i_vcmpnlepd_kxo (r 0) (r 1) (o 2))
     (fun v => let (o, a, r, n, e, s) := v in MnemonicAvx.i_vcmpnlepd_kxo (r 0) (r 1) (widen_op (o 2)))].
Lemma sims57_ok : Forall same sims57.
Proof. unfold sims57.
row. { unfold MnemonicAvx32.i_vcmpneqpd_kxo, MnemonicAvx32.i_vcmppd_kxoi, MnemonicAvx.i_vcmpneqpd_kxo, MnemonicAvx.i_vcmppd_kxoi. row_sim. }
row. { unfold MnemonicAvx32.i_vcmpneqps_kxo, MnemonicAvx32.i_vcmpps_kxoi, MnemonicAvx.i_vcmpneqps_kxo, MnemonicAvx.i_vcmpps_kxoi. row_sim. }
row. { unfold MnemonicAvx32.i_vcmpneqsd_kxo, MnemonicAvx32.i_vcmpsd_kxoi, MnemonicAvx.i_vcmpneqsd_kxo, MnemonicAvx.i_vcmpsd_kxoi. row_sim. }
row. { unfold MnemonicAvx32.i_vcmpneqss_kxo, MnemonicAvx32.i_vcmpss_kxoi, MnemonicAvx.i_vcmpneqss_kxo, MnemonicAvx.i_vcmpss_kxoi. row_sim. }
row. { unfold MnemonicAvx32.i_vcmpnge_uqpd_kxo, MnemonicAvx32.i_vcmppd_kxoi, MnemonicAvx.i_vcmpnge_uqpd_kxo, MnemonicAvx.i_vcmppd_kxoi. row_sim. }
row. { unfold MnemonicAvx32.i_vcmpnge_uqps_kxo, MnemonicAvx32.i_vcmpps_kxoi, MnemonicAvx.i_vcmpnge_uqps_kxo, MnemonicAvx.i_vcmpps_kxoi. row_sim. }
row. { unfold MnemonicAvx32.i_vcmpnge_uqsd_kxo, MnemonicAvx32.i_vcmpsd_kxoi, MnemonicAvx.i_vcmpnge_uqsd_kxo, MnemonicAvx.i_vcmpsd_kxoi. row_sim. }
row. { unfold MnemonicAvx32.i_vcmpnge_uqss_kxo, MnemonicAvx32.i_vcmpss_kxoi, MnemonicAvx.i_vcmpnge_uqss_kxo, MnemonicAvx.i_vcmpss_kxoi. row_sim. }
row. { unfold MnemonicAvx32.i_vcmpngepd_kxo, MnemonicAvx32.i_vcmppd_kxoi, MnemonicAvx.i_vcmpngepd_kxo, MnemonicAvx.i_vcmppd_kxoi. row_sim. }
row. { unfold MnemonicAvx32.i_vcmpngeps_kxo, MnemonicAvx32.i_vcmpps_kxoi, MnemonicAvx.i_vcmpngeps_kxo, MnemonicAvx.i_vcmpps_kxoi. row_sim. }
row. { unfold MnemonicAvx32.i_vcmpngesd_kxo, MnemonicAvx32.i_vcmpsd_kxoi, MnemonicAvx.i_vcmpngesd_kxo, MnemonicAvx.i_vcmpsd_kxoi. row_sim. }
row. { unfold MnemonicAvx32.i_vcmpngess_kxo, MnemonicAvx32.i_vcmpss_kxoi, MnemonicAvx.i_vcmpngess_kxo, MnemonicAvx.i_vcmpss_kxoi. row_sim. }
row. { unfold MnemonicAvx32.i_vcmpngt_uqpd_kxo, MnemonicAvx32.i_vcmppd_kxoi, MnemonicAvx.i_vcmpngt_uqpd_kxo, MnemonicAvx.i_vcmppd_kxoi. row_sim. }
row. { unfold MnemonicAvx32.i_vcmpngt_uqps_kxo, MnemonicAvx32.i_vcmpps_kxoi, MnemonicAvx.i_vcmpngt_uqps_kxo, MnemonicAvx.i_vcmpps_kxoi. row_sim. }
row. { unfold MnemonicAvx32.i_vcmpngt_uqsd_kxo, MnemonicAvx32.i_vcmpsd_kxoi, MnemonicAvx.i_vcmpngt_uqsd_kxo, MnemonicAvx.i_vcmpsd_kxoi. row_sim. }
row. { unfold MnemonicAvx32.i_vcmpngt_uqss_kxo, MnemonicAvx32.i_vcmpss_kxoi, MnemonicAvx.i_vcmpngt_uqss_kxo, MnemonicAvx.i_vcmpss_kxoi. row_sim. }
row. { unfold MnemonicAvx32.i_vcmpngtpd_kxo, MnemonicAvx32.i_vcmppd_kxoi, MnemonicAvx.i_vcmpngtpd_kxo, MnemonicAvx.i_vcmppd_kxoi. row_sim. }
row. { unfold MnemonicAvx32.i_vcmpngtps_kxo, MnemonicAvx32.i_vcmpps_kxoi, MnemonicAvx.i_vcmpngtps_kxo, MnemonicAvx.i_vcmpps_kxoi. row_sim. }
row. { unfold MnemonicAvx32.i_vcmpngtsd_kxo, MnemonicAvx32.i_vcmpsd_kxoi, MnemonicAvx.i_vcmpngtsd_kxo, MnemonicAvx.i_vcmpsd_kxoi. row_sim. }
row. { unfold MnemonicAvx32.i_vcmpngtss_kxo, MnemonicAvx32.i_vcmpss_kxoi, MnemonicAvx.i_vcmpngtss_kxo, MnemonicAvx.i_vcmpss_kxoi. row_sim. }
row. { unfold MnemonicAvx32.i_vcmpnle_uqpd_kxo, MnemonicAvx32.i_vcmppd_kxoi, MnemonicAvx.i_vcmpnle_uqpd_kxo, MnemonicAvx.i_vcmppd_kxoi. row_sim. }
row. { unfold MnemonicAvx32.i_vcmpnle_uqps_kxo, MnemonicAvx32.i_vcmpps_kxoi, MnemonicAvx.i_vcmpnle_uqps_kxo, MnemonicAvx.i_vcmpps_kxoi. row_sim. }
row. { unfold MnemonicAvx32.i_vcmpnle_uqsd_kxo, MnemonicAvx32.i_vcmpsd_kxoi, MnemonicAvx.i_vcmpnle_uqsd_kxo, MnemonicAvx.i_vcmpsd_kxoi. row_sim. }
row. { unfold MnemonicAvx32.i_vcmpnle_uqss_kxo, MnemonicAvx32.i_vcmpss_kxoi, MnemonicAvx.i_vcmpnle_uqss_kxo, MnemonicAvx.i_vcmpss_kxoi. row_sim. }
row. { unfold MnemonicAvx32.i_vcmpnlepd_kxo, MnemonicAvx32.i_vcmppd_kxoi, MnemonicAvx.i_vcmpnlepd_kxo, MnemonicAvx.i_vcmppd_kxoi. row_sim. }
apply Forall_nil. Qed.
Definition sims58 : list b_entry :=
  [mkB "vcmpnleps_kxo" (fun v => let (o, a, r, n, e, s) := v in MnemonicAvx32.i_vcmpnleps_kxo (r 0) (r 1) (o 2))
     (fun v => let (o, a, r, n, e, s) := v in MnemonicAvx.i_vcmpnleps_kxo (r 0) (r 1) (widen_op (o 2)));
   mkB "vcmpnlesd_kxo" (fun v => let (o, a, r, n, e, s) := v in MnemonicAvx32.i_vcmpnlesd_kxo (r 0) (r 1) (o 2))
     (fun v => let (o, a, r, n, e, s) := v in MnemonicAvx.i_vcmpnlesd_kxo (r 0) (r 1) (widen_op (o 2)));
   mkB "vcmpnless_kxo" (fun v => let (o, a, r, n, e, s) := v in MnemonicAvx32.i_vcmpnless_kxo (r 0) (r 1) (o 2))
     (fun v => let (o, a, r, n, e, s) := v in MnemonicAvx.i_vcmpnless_kxo (r 0) (r 1) (widen_op (o 2)));
   mkB "vcmpnlt_uqpd_kxo" (fun v => let (o, a, r, n, e, s) := v in MnemonicAvx32.i_vcmpnlt_uqpd_kxo (r 0) (r 1) (o 2))
     (fun v => let (o, a, r, n, e, s) := v in MnemonicAvx.i_vcmpnlt_uqpd_kxo (r 0) (r 1) (widen_op (o 2)));
   mkB "vcmpnlt_uqps_kxo" (fun v => let (o, a, r, n, e, s) := v in MnemonicAvx32.i_vcmpnlt_uqps_kxo (r 0) (r 1) (o 2))
     (fun v => let (o, a, r, n, e, s) := v in MnemonicAvx.i_vcmpnlt_uqps_kxo (r 0) (r 1) (widen_op (o 2)));
   mkB "vcmpnlt_uqsd_kxo" (fun v => let (o, a, r, n, e, s) := v in MnemonicAvx32.i_vcmpnlt_uqsd_kxo (r 0) (r 1) (o 2))
     (fun v => let (o, a, r, n, e, s) := v in MnemonicAvx.i_vcmpnlt_uqsd_kxo (r 0) (r 1) (widen_op (o 2)));
   mkB "vcmpnlt_uqss_kxo" (fun v => let (o, a, r, n, e, s) := v in MnemonicAvx32.i_vcmpnlt_uqss_kxo (r 0) (r 1) (o 2))
     (fun v => let (o, a, r, n, e, s) := v in MnemonicAvx.i_vcmpnlt_uqss_kxo (r 0) (r 1) (widen_op (o 2)));
   mkB "vcmpnltpd_kxo" (fun v => let (o, a, r, n, e, s) := v in MnemonicAvx32.i_vcmpnltpd_kxo (r 0) (r 1) (o 2))
     (fun v => let (o, a, r, n, e, s) := v in MnemonicAvx.i_vcmpnltpd_kxo (r 0) (r 1) (widen_op (o 2)));
   mkB "vcmpnltps_kxo" (fun v => let (o, a, r, n, e, s) := v in MnemonicAvx32.i_vcmpnltps_kxo (r 0) (r 1) (o 2))
     (fun v => let (o, a, r, n, e, s) := v in MnemonicAvx.i_vcmpnltps_kxo (r 0) (r 1) (widen_op (o 2)));
   mkB "vcmpnltsd_kxo" (fun v => let (o, a, r, n, e, s) := v in MnemonicAvx32.i_vcmpnltsd_kxo (r 0) (r 1) (o 2))
     (fun v => let (o, a, r, n, e, s) := v in MnemonicAvx.i_vcmpnltsd_kxo (r 0) (r 1) (widen_op (o 2)));
   mkB "vcmpnltss_kxo" (fun v => let (o, a, r, n, e, s) := v in MnemonicAvx32.i_vcmpnltss_kxo (r 0) (r 1) (o 2))
     (fun v => let (o, a, r, n, e, s) := v in MnemonicAvx.i_vcmpnltss_kxo (r 0) (r 1) (widen_op (o 2)));
   mkB "vcmpord_spd_kxo" (fun v => let (o, a, r, n, e, s) := v in MnemonicAvx32.i_vcmpord_spd_kxo (r 0) (r 1) (o 2))
     (fun v => let (o, a, r, n, e, s) := v in MnemonicAvx.i_vcmpord_spd_kxo (r 0) (r 1) (widen_op (o 2)));
   mkB "vcmpord_sps_kxo" (fun v => let (o, a, r, n, e, s) := v in MnemonicAvx32.i_vcmpord_sps_kxo (r 0) (r 1) (o 2))
     (fun v => let (o, a, r, n, e, s) := v in MnemonicAvx.i_vcmpord_sps_kxo (r 0) (r 1) (widen_op (o 2)));
   mkB "vcmpord_ssd_kxo" (fun v => let (o, a, r, n, e, s) := v in MnemonicAvx32.i_vcmpord_ssd_kxo (r 0) (r 1) (o 2))
     (fun v => let (o, a, r, n, e, s) := v in MnemonicAvx.i_vcmpord_ssd_kxo (r 0) (r 1) (widen_op (o 2)));
   mkB "vcmpord_sss_kxo" (fun v => let (o, a, r, n, e, s) := v in MnemonicAvx32.i_vcmpord_sss_kxo (r 0) (r 1) (o 2))
     (fun v => let (o, a, r, n, e, s) := v in MnemonicAvx.i_vcmpord_sss_kxo (r 0) (r 1) (widen_op (o 2)));
   mkB "vcmpordpd_kxo" (fun v => let (o, a, r, n, e, s) := v in MnemonicAvx32.i_vcmpordpd_kxo (r 0) (r 1) (o 2))
     (fun v => let (o, a, r, n, e, s) := v in MnemonicAvx.i_vcmpordpd_kxo (r 0) (r 1) (widen_op (o 2)));
   mkB "vcmpordps_kxo" (fun v => let (o, a, r, n, e, s) := v in MnemonicAvx32.i_vcmpordps_kxo (r 0) (r 1) (o 2))
     (fun v => let (o, a, r, n, e, s) := v in MnemonicAvx.i_vcmpordps_kxo (r 0) (r 1) (widen_op (o 2)));
   mkB "vcmpordsd_kxo" (fun v => let (o, a, r, n, e, s) := v in MnemonicAvx32.i_vcmpordsd_kxo (r 0) (r 1) (o 2))
     (fun v => let (o, a, r, n, e, s) := v in MnemonicAvx.i_vcmpordsd_kxo (r 0) (r 1) (widen_op (o 2)));
   mkB "vcmpordss_kxo" (fun v => let (o, a, r, n, e, s) := v in MnemonicAvx32.i_vcmpordss_kxo (r 0) (r 1) (o 2))
     (fun v => let (o, a, r, n, e, s) := v in MnemonicAvx.i_vcmpordss_kxo (r 0) (r 1) (widen_op (o 2)));
   mkB "vcmppbf16" (fun v => let (o, a, r, n, e, s) := v in MnemonicAvx32.i_vcmppbf16 (r 0) (r 1) (o 2) (n 3))
     (fun v => let (o, a, r, n, e, s) := v in MnemonicAvx.i_vcmppbf16 (r 0) (r 1) (widen_op (o 2)) (n 3));
   mkB "vcmpph" (fun v => let (o, a, r, n, e, s) := v in MnemonicAvx32.i_vcmpph (r 0) (r 1) (o 2) (n 3))
     (fun v => let (o, a, r, n, e, s) := v in MnemonicAvx.i_vcmpph (r 0) (r 1) (widen_op (o 2)) (n 3));
   mkB "vcmpsh" (fun v => let (o, a, r, n, e, s) := v in MnemonicAvx32.i_vcmpsh (r 0) (r 1) (o 2) (n 3))
     (fun v => let (o, a, r, n, e, s) := v in MnemonicAvx.i_vcmpsh (r 0) (r 1) (widen_op (o 2)) (n 3));
   mkB "vcmptrue_uspd_kxo" (fun v => let (o, a, r, n, e, s) := v in MnemonicAvx32.i_vcmptrue_uspd_kxo (r 0) (r 1) (o 2))
     (fun v => let (o, a, r, n, e, s) := v in MnemonicAvx.i_vcmptrue_uspd_kxo (r 0) (r 1) (widen_op (o 2)));
   mkB "vcmptrue_usps_kxo" (fun v => let (o, a, r, n, e, s) := v in MnemonicAvx32.i_vcmptrue_usps_kxo (r 0) (r 1) (o 2))
     (fun v => let (o, a, r, n, e, s) := v in MnemonicAvx.i_vcmptrue_usps_kxo (r 0) (r 1) (widen_op (o 2)));
   mkB "vcmptrue_ussd_kxo" (fun v => let (o, a, r, n, e, s) := v in MnemonicAvx32.i_vcmptrue_ussd_kxo (r 0) (r 1) (o 2))
     (fun v => let (o, a, r, n, e, s) := v in MnemonicAvx.i_vcmptrue_ussd_kxo (r 0) (r 1) (widen_op (o 2)))].
Lemma sims58_ok : Forall same sims58.
Proof. unfold sims58.
row. { unfold MnemonicAvx32.i_vcmpnleps_kxo, MnemonicAvx32.i_vcmpps_kxoi, MnemonicAvx.i_vcmpnleps_kxo, MnemonicAvx.i_vcmpps_kxoi. row_sim. }
row. { unfold MnemonicAvx32.i_vcmpnlesd_kxo, MnemonicAvx32.i_vcmpsd_kxoi, MnemonicAvx.i_vcmpnlesd_kxo, MnemonicAvx.i_vcmpsd_kxoi. row_sim. }
row. { unfold MnemonicAvx32.i_vcmpnless_kxo, MnemonicAvx32.i_vcmpss_kxoi, MnemonicAvx.i_vcmpnless_kxo, MnemonicAvx.i_vcmpss_kxoi. row_sim. }
row. { unfold MnemonicAvx32.i_vcmpnlt_uqpd_kxo, MnemonicAvx32.i_vcmppd_kxoi, MnemonicAvx.i_vcmpnlt_uqpd_kxo, MnemonicAvx.i_vcmppd_kxoi. row_sim. }
row. { unfold MnemonicAvx32.i_vcmpnlt_uqps_kxo, MnemonicAvx32.i_vcmpps_kxoi, MnemonicAvx.i_vcmpnlt_uqps_kxo, MnemonicAvx.i_vcmpps_kxoi. row_sim. }
row. { unfold MnemonicAvx32.i_vcmpnlt_uqsd_kxo, MnemonicAvx32.i_vcmpsd_kxoi, MnemonicAvx.i_vcmpnlt_uqsd_kxo, MnemonicAvx.i_vcmpsd_kxoi. row_sim. }
row. { unfold MnemonicAvx32.i_vcmpnlt_uqss_kxo, MnemonicAvx32.i_vcmpss_kxoi, MnemonicAvx.i_vcmpnlt_uqss_kxo, MnemonicAvx.i_vcmpss_kxoi. row_sim. }
row. { unfold MnemonicAvx32.i_vcmpnltpd_kxo, MnemonicAvx32.i_vcmppd_kxoi, MnemonicAvx.i_vcmpnltpd_kxo, MnemonicAvx.i_vcmppd_kxoi. row_sim. }
row. { unfold MnemonicAvx32.i_vcmpnltps_kxo, MnemonicAvx32.i_vcmpps_kxoi, MnemonicAvx.i_vcmpnltps_kxo, MnemonicAvx.i_vcmpps_kxoi. row_sim. }
row. { unfold MnemonicAvx32.i_vcmpnltsd_kxo, MnemonicAvx32.i_vcmpsd_kxoi, MnemonicAvx.i_vcmpnltsd_kxo, MnemonicAvx.i_vcmpsd_kxoi. row_sim. }
row. { unfold MnemonicAvx32.i_vcmpnltss_kxo, MnemonicAvx32.i_vcmpss_kxoi, MnemonicAvx.i_vcmpnltss_kxo, MnemonicAvx.i_vcmpss_kxoi. row_sim. }
row. { unfold MnemonicAvx32.i_vcmpord_spd_kxo, MnemonicAvx32.i_vcmppd_kxoi, MnemonicAvx.i_vcmpord_spd_kxo, MnemonicAvx.i_vcmppd_kxoi. row_sim. }
row. { unfold MnemonicAvx32.i_vcmpord_sps_kxo, MnemonicAvx32.i_vcmpps_kxoi, MnemonicAvx.i_vcmpord_sps_kxo, MnemonicAvx.i_vcmpps_kxoi. row_sim. }
row. { unfold MnemonicAvx32.i_vcmpord_ssd_kxo, MnemonicAvx32.i_vcmpsd_kxoi, MnemonicAvx.i_vcmpord_ssd_kxo, MnemonicAvx.i_vcmpsd_kxoi. row_sim. }
row. { unfold MnemonicAvx32.i_vcmpord_sss_kxo, MnemonicAvx32.i_vcmpss_kxoi, MnemonicAvx.i_vcmpord_sss_kxo, MnemonicAvx.i_vcmpss_kxoi. row_sim. }
row. { unfold MnemonicAvx32.i_vcmpordpd_kxo, MnemonicAvx32.i_vcmppd_kxoi, MnemonicAvx.i_vcmpordpd_kxo, MnemonicAvx.i_vcmppd_kxoi. row_sim. }
row. { unfold MnemonicAvx32.i_vcmpordps_kxo, MnemonicAvx32.i_vcmpps_kxoi, MnemonicAvx.i_vcmpordps_kxo, MnemonicAvx.i_vcmpps_kxoi. row_sim. }
row. { unfold MnemonicAvx32.i_vcmpordsd_kxo, MnemonicAvx32.i_vcmpsd_kxoi, MnemonicAvx.i_vcmpordsd_kxo, MnemonicAvx.i_vcmpsd_kxoi. row_sim. }
row. { unfold MnemonicAvx32.i_vcmpordss_kxo, MnemonicAvx32.i_vcmpss_kxoi, MnemonicAvx.i_vcmpordss_kxo, MnemonicAvx.i_vcmpss_kxoi. row_sim. }
row. { unfold MnemonicAvx32.i_vcmppbf16, MnemonicAvx.i_vcmppbf16. row_sim. }
row. { unfold MnemonicAvx32.i_vcmpph, MnemonicAvx.i_vcmpph. row_sim. }
row. { unfold MnemonicAvx32.i_vcmpsh, MnemonicAvx.i_vcmpsh. row_sim. }
row. { unfold MnemonicAvx32.i_vcmptrue_uspd_kxo, MnemonicAvx32.i_vcmppd_kxoi, MnemonicAvx.i_vcmptrue_uspd_kxo, MnemonicAvx.i_vcmppd_kxoi. row_sim. }
row. { unfold MnemonicAvx32.i_vcmptrue_usps_kxo, MnemonicAvx32.i_vcmpps_kxoi, MnemonicAvx.i_vcmptrue_usps_kxo, MnemonicAvx.i_vcmpps_kxoi. row_sim. }
row. { unfold MnemonicAvx32.i_vcmptrue_ussd_kxo, MnemonicAvx32.i_vcmpsd_kxoi, MnemonicAvx.i_vcmptrue_ussd_kxo, MnemonicAvx.i_vcmpsd_kxoi. row_sim. }
apply Forall_nil. Qed.
Definition sims59 : list b_entry :=
  [mkB "vcmptrue_usss_kxo" (fun v => let (o, a, r, n, e, s) := v in MnemonicAvx32.i_vcmptrue_usss_kxo (r 0) (r 1) (o 2))
     (fun v => let (o, a, r, n, e, s) := v in MnemonicAvx.i_vcmptrue_usss_kxo (r 0) (r 1) (widen_op (o 2)));
   mkB "vcmptruepd_kxo" (fun v => let (o, a, r, n, e, s) := v in MnemonicAvx32.i_vcmptruepd_kxo (r 0) (r 1) (o 2))
     (fun v => let (o, a, r, n, e, s) := v in MnemonicAvx.i_vcmptruepd_kxo (r 0) (r 1) (widen_op (o 2)));
   mkB "vcmptrueps_kxo" (fun v => let (o, a, r, n, e, s) := v in MnemonicAvx32.i_vcmptrueps_kxo (r 0) (r 1) (o 2))
     (fun v => let (o, a, r, n, e, s) := v in MnemonicAvx.i_vcmptrueps_kxo (r 0) (r 1) (widen_op (o 2)));
   mkB "vcmptruesd_kxo" (fun v => let (o, a, r, n, e, s) := v in MnemonicAvx32.i_vcmptruesd_kxo (r 0) (r 1) (o 2))
     (fun v => let (o, a, r, n, e, s) := v in MnemonicAvx.i_vcmptruesd_kxo (r 0) (r 1) (widen_op (o 2)));
   mkB "vcmptruess_kxo" (fun v => let (o, a, r, n, e, s) := v in MnemonicAvx32.i_vcmptruess_kxo (r 0) (r 1) (o 2))
     (fun v => let (o, a, r, n, e, s) := v in MnemonicAvx.i_vcmptruess_kxo (r 0) (r 1) (widen_op (o 2)));
   mkB "vcmpunord_spd_kxo" (fun v => let (o, a, r, n, e, s) := v in MnemonicAvx32.i_vcmpunord_spd_kxo (r 0) (r 1) (o 2))
     (fun v => let (o, a, r, n, e, s) := v in MnemonicAvx.i_vcmpunord_spd_kxo (r 0) (r 1) (widen_op (o 2)));
   mkB "vcmpunord_sps_kxo" (fun v => let (o, a, r, n, e, s) := v in MnemonicAvx32.i_vcmpunord_sps_kxo (r 0) (r 1) (o 2))
     (fun v => let (o, a, r, n, e, s) := v in MnemonicAvx.i_vcmpunord_sps_kxo (r 0) (r 1) (widen_op (o 2)));
   mkB "vcmpunord_ssd_kxo" (fun v => let (o, a, r, n, e, s) := v in MnemonicAvx32.i_vcmpunord_ssd_kxo (r 0) (r 1) (o 2))
     (fun v => let (o, a, r, n, e, s) := v in MnemonicAvx.i_vcmpunord_ssd_kxo (r 0) (r 1) (widen_op (o 2)));
   mkB "vcmpunord_sss_kxo" (fun v => let (o, a, r, n, e, s) := v in MnemonicAvx32.i_vcmpunord_sss_kxo (r 0) (r 1) (o 2))
     (fun v => let (o, a, r, n, e, s) := v in MnemonicAvx.i_vcmpunord_sss_kxo (r 0) (r 1) (widen_op (o 2)));
   mkB "vcmpunordpd_kxo" (fun v => let (o, a, r, n, e, s) := v in MnemonicAvx32.i_vcmpunordpd_kxo (r 0) (r 1) (o 2))
     (fun v => let (o, a, r, n, e, s) := v in MnemonicAvx.i_vcmpunordpd_kxo (r 0) (r 1) (widen_op (o 2)));
   mkB "vcmpunordps_kxo" (fun v => let (o, a, r, n, e, s) := v in MnemonicAvx32.i_vcmpunordps_kxo (r 0) (r 1) (o 2))
     (fun v => let (o, a, r, n, e, s) := v in MnemonicAvx.i_vcmpunordps_kxo (r 0) (r 1) (widen_op (o 2)));
   mkB "vcmpunordsd_kxo" (fun v => let (o, a, r, n, e, s) := v in MnemonicAvx32.i_vcmpunordsd_kxo (r 0) (r 1) (o 2))
     (fun v => let (o, a, r, n, e, s) := v in MnemonicAvx.i_vcmpunordsd_kxo (r 0) (r 1) (widen_op (o 2)));
   mkB "vcmpunordss_kxo" (fun v => let (o, a, r, n, e, s) := v in MnemonicAvx32.i_vcmpunordss_kxo (r 0) (r 1) (o 2))
     (fun v => let (o, a, r, n, e, s) := v in MnemonicAvx.i_vcmpunordss_kxo (r 0) (r 1) (widen_op (o 2)));
   mkB "vcomish" (fun v => let (o, a, r, n, e, s) := v in MnemonicAvx32.i_vcomish (r 0) (o 1))
     (fun v => let (o, a, r, n, e, s) := v in MnemonicAvx.i_vcomish (r 0) (widen_op (o 1)));
   mkB "vcompresspd" (fun v => let (o, a, r, n, e, s) := v in MnemonicAvx32.i_vcompresspd (o 0) (r 1))
     (fun v => let (o, a, r, n, e, s) := v in MnemonicAvx.i_vcompresspd (widen_op (o 0)) (r 1));
   mkB "vcompressps" (fun v => let (o, a, r, n, e, s) := v in MnemonicAvx32.i_vcompressps (o 0) (r 1))
     (fun v => let (o, a, r, n, e, s) := v in MnemonicAvx.i_vcompressps (widen_op (o 0)) (r 1));
   mkB "vcomsbf16" (fun v => let (o, a, r, n, e, s) := v in MnemonicAvx32.i_vcomsbf16 (r 0) (o 1))
     (fun v => let (o, a, r, n, e, s) := v in MnemonicAvx.i_vcomsbf16 (r 0) (widen_op (o 1)));
   mkB "vcomxsd" (fun v => let (o, a, r, n, e, s) := v in MnemonicAvx32.i_vcomxsd (r 0) (o 1))
     (fun v => let (o, a, r, n, e, s) := v in MnemonicAvx.i_vcomxsd (r 0) (widen_op (o 1)));
   mkB "vcomxsh" (fun v => let (o, a, r, n, e, s) := v in MnemonicAvx32.i_vcomxsh (r 0) (o 1))
     (fun v => let (o, a, r, n, e, s) := v in MnemonicAvx.i_vcomxsh (r 0) (widen_op (o 1)));
   mkB "vcomxss" (fun v => let (o, a, r, n, e, s) := v in MnemonicAvx32.i_vcomxss (r 0) (o 1))
     (fun v => let (o, a, r, n, e, s) := v in MnemonicAvx.i_vcomxss (r 0) (widen_op (o 1)));
   mkB "vcvt2ps2phx" (fun v => let (o, a, r, n, e, s) := v in MnemonicAvx32.i_vcvt2ps2phx (r 0) (r 1) (o 2))
     (fun v => let (o, a, r, n, e, s) := v in MnemonicAvx.i_vcvt2ps2phx (r 0) (r 1) (widen_op (o 2)));
   mkB "vcvtbiasph2bf8" (fun v => let (o, a, r, n, e, s) := v in MnemonicAvx32.i_vcvtbiasph2bf8 (r 0) (r 1) (o 2))
     (fun v => let (o, a, r, n, e, s) := v in MnemonicAvx.i_vcvtbiasph2bf8 (r 0) (r 1) (widen_op (o 2)));
   mkB "vcvtbiasph2bf8s" (fun v => let (o, a, r, n, e, s) := v in MnemonicAvx32.i_vcvtbiasph2bf8s (r 0) (r 1) (o 2))
     (fun v => let (o, a, r, n, e, s) := v in MnemonicAvx.i_vcvtbiasph2bf8s (r 0) (r 1) (widen_op (o 2)));
   mkB "vcvtbiasph2hf8" (fun v => let (o, a, r, n, e, s) := v in MnemonicAvx32.i_vcvtbiasph2hf8 (r 0) (r 1) (o 2))
     (fun v => let (o, a, r, n, e, s) := v in MnemonicAvx.i_vcvtbiasph2hf8 (r 0) (r 1) (widen_op (o 2)));
   mkB "vcvtbiasph2hf8s" (fun v => let (o, a, r, n, e, s) := v in MnemonicAvx32.i_vcvtbiasph2hf8s (r 0) (r 1) (o 2))
     (fun v => let (o, a, r, n, e, s) := v in MnemonicAvx.i_vcvtbiasph2hf8s (r 0) (r 1) (widen_op (o 2)))].
Lemma sims59_ok : Forall same sims59.
Proof. unfold sims59.
row. { unfold MnemonicAvx32.i_vcmptrue_usss_kxo, MnemonicAvx32.i_vcmpss_kxoi, MnemonicAvx.i_vcmptrue_usss_kxo, MnemonicAvx.i_vcmpss_kxoi. row_sim. }
row. { unfold MnemonicAvx32.i_vcmptruepd_kxo, MnemonicAvx32.i_vcmppd_kxoi, MnemonicAvx.i_vcmptruepd_kxo, MnemonicAvx.i_vcmppd_kxoi. row_sim. }
row. { unfold MnemonicAvx32.i_vcmptrueps_kxo, MnemonicAvx32.i_vcmpps_kxoi, MnemonicAvx.i_vcmptrueps_kxo, MnemonicAvx.i_vcmpps_kxoi. row_sim. }
row. { unfold MnemonicAvx32.i_vcmptruesd_kxo, MnemonicAvx32.i_vcmpsd_kxoi, MnemonicAvx.i_vcmptruesd_kxo, MnemonicAvx.i_vcmpsd_kxoi. row_sim. }
row. { unfold MnemonicAvx32.i_vcmptruess_kxo, MnemonicAvx32.i_vcmpss_kxoi, MnemonicAvx.i_vcmptruess_kxo, MnemonicAvx.i_vcmpss_kxoi. row_sim. }
row. { unfold MnemonicAvx32.i_vcmpunord_spd_kxo, MnemonicAvx32.i_vcmppd_kxoi, MnemonicAvx.i_vcmpunord_spd_kxo, MnemonicAvx.i_vcmppd_kxoi. row_sim. }
row. { unfold MnemonicAvx32.i_vcmpunord_sps_kxo, MnemonicAvx32.i_vcmpps_kxoi, MnemonicAvx.i_vcmpunord_sps_kxo, MnemonicAvx.i_vcmpps_kxoi. row_sim. }
row. { unfold MnemonicAvx32.i_vcmpunord_ssd_kxo, MnemonicAvx32.i_vcmpsd_kxoi, MnemonicAvx.i_vcmpunord_ssd_kxo, MnemonicAvx.i_vcmpsd_kxoi. row_sim. }
row. { unfold MnemonicAvx32.i_vcmpunord_sss_kxo, MnemonicAvx32.i_vcmpss_kxoi, MnemonicAvx.i_vcmpunord_sss_kxo, MnemonicAvx.i_vcmpss_kxoi. row_sim. }
row. { unfold MnemonicAvx32.i_vcmpunordpd_kxo, MnemonicAvx32.i_vcmppd_kxoi, MnemonicAvx.i_vcmpunordpd_kxo, MnemonicAvx.i_vcmppd_kxoi. row_sim. }
row. { unfold MnemonicAvx32.i_vcmpunordps_kxo, MnemonicAvx32.i_vcmpps_kxoi, MnemonicAvx.i_vcmpunordps_kxo, MnemonicAvx.i_vcmpps_kxoi. row_sim. }
row. { unfold MnemonicAvx32.i_vcmpunordsd_kxo, MnemonicAvx32.i_vcmpsd_kxoi, MnemonicAvx.i_vcmpunordsd_kxo, MnemonicAvx.i_vcmpsd_kxoi. row_sim. }
row. { unfold MnemonicAvx32.i_vcmpunordss_kxo, MnemonicAvx32.i_vcmpss_kxoi, MnemonicAvx.i_vcmpunordss_kxo, MnemonicAvx.i_vcmpss_kxoi. row_sim. }
row. { unfold MnemonicAvx32.i_vcomish, MnemonicAvx.i_vcomish. row_sim. }
row. { unfold MnemonicAvx32.i_vcompresspd, MnemonicAvx.i_vcompresspd. row_sim. }
row. { unfold MnemonicAvx32.i_vcompressps, MnemonicAvx.i_vcompressps. row_sim. }
row. { unfold MnemonicAvx32.i_vcomsbf16, MnemonicAvx.i_vcomsbf16. row_sim. }
row. { unfold MnemonicAvx32.i_vcomxsd, MnemonicAvx.i_vcomxsd. row_sim. }
row. { unfold MnemonicAvx32.i_vcomxsh, MnemonicAvx.i_vcomxsh. row_sim. }
row. { unfold MnemonicAvx32.i_vcomxss, MnemonicAvx.i_vcomxss. row_sim. }
row. { unfold MnemonicAvx32.i_vcvt2ps2phx, MnemonicAvx.i_vcvt2ps2phx. row_sim. }
row. { unfold MnemonicAvx32.i_vcvtbiasph2bf8, MnemonicAvx.i_vcvtbiasph2bf8. row_sim. }
row. { unfold MnemonicAvx32.i_vcvtbiasph2bf8s, MnemonicAvx.i_vcvtbiasph2bf8s. row_sim. }
row. { unfold MnemonicAvx32.i_vcvtbiasph2hf8, MnemonicAvx.i_vcvtbiasph2hf8. row_sim. }
row. { unfold MnemonicAvx32.i_vcvtbiasph2hf8s, MnemonicAvx.i_vcvtbiasph2hf8s. row_sim. }
apply Forall_nil. Qed.
Definition sims60 : list b_entry :=
  [mkB "vcvtdq2ph" (fun v => let (o, a, r, n, e, s) := v in MnemonicAvx32.i_vcvtdq2ph (r 0) (o 1))
     (fun v => let (o, a, r, n, e, s) := v in MnemonicAvx.i_vcvtdq2ph (r 0) (widen_op (o 1)));
   mkB "vcvthf82ph" (fun v => let (o, a, r, n, e, s) := v in MnemonicAvx32.i_vcvthf82ph (r 0) (o 1))
     (fun v => let (o, a, r, n, e, s) := v in MnemonicAvx.i_vcvthf82ph (r 0) (widen_op (o 1)));
   mkB "vcvtne2ph2bf8" (fun v => let (o, a, r, n, e, s) := v in MnemonicAvx32.i_vcvtne2ph2bf8 (r 0) (r 1) (o 2))
     (fun v => let (o, a, r, n, e, s) := v in MnemonicAvx.i_vcvtne2ph2bf8 (r 0) (r 1) (widen_op (o 2)));
   mkB "vcvtne2ph2bf8s" (fun v => let (o, a, r, n, e, s) := v in MnemonicAvx32.i_vcvtne2ph2bf8s (r 0) (r 1) (o 2))
     (fun v => let (o, a, r, n, e, s) := v in MnemonicAvx.i_vcvtne2ph2bf8s (r 0) (r 1) (widen_op (o 2)));
   mkB "vcvtne2ph2hf8" (fun v => let (o, a, r, n, e, s) := v in MnemonicAvx32.i_vcvtne2ph2hf8 (r 0) (r 1) (o 2))
     (fun v => let (o, a, r, n, e, s) := v in MnemonicAvx.i_vcvtne2ph2hf8 (r 0) (r 1) (widen_op (o 2)));
   mkB "vcvtne2ph2hf8s" (fun v => let (o, a, r, n, e, s) := v in MnemonicAvx32.i_vcvtne2ph2hf8s (r 0) (r 1) (o 2))
     (fun v => let (o, a, r, n, e, s) := v in MnemonicAvx.i_vcvtne2ph2hf8s (r 0) (r 1) (widen_op (o 2)));
   mkB "vcvtne2ps2bf16" (fun v => let (o, a, r, n, e, s) := v in MnemonicAvx32.i_vcvtne2ps2bf16 (r 0) (r 1) (o 2))
     (fun v => let (o, a, r, n, e, s) := v in MnemonicAvx.i_vcvtne2ps2bf16 (r 0) (r 1) (widen_op (o 2)));
   mkB "vcvtnebf162ibs" (fun v => let (o, a, r, n, e, s) := v in MnemonicAvx32.i_vcvtnebf162ibs (r 0) (o 1))
     (fun v => let (o, a, r, n, e, s) := v in MnemonicAvx.i_vcvtnebf162ibs (r 0) (widen_op (o 1)));
   mkB "vcvtnebf162iubs" (fun v => let (o, a, r, n, e, s) := v in MnemonicAvx32.i_vcvtnebf162iubs (r 0) (o 1))
     (fun v => let (o, a, r, n, e, s) := v in MnemonicAvx.i_vcvtnebf162iubs (r 0) (widen_op (o 1)));
   mkB "vcvtneph2bf8" (fun v => let (o, a, r, n, e, s) := v in MnemonicAvx32.i_vcvtneph2bf8 (r 0) (o 1))
     (fun v => let (o, a, r, n, e, s) := v in MnemonicAvx.i_vcvtneph2bf8 (r 0) (widen_op (o 1)));
   mkB "vcvtneph2bf8s" (fun v => let (o, a, r, n, e, s) := v in MnemonicAvx32.i_vcvtneph2bf8s (r 0) (o 1))
     (fun v => let (o, a, r, n, e, s) := v in MnemonicAvx.i_vcvtneph2bf8s (r 0) (widen_op (o 1)));
   mkB "vcvtneph2hf8" (fun v => let (o, a, r, n, e, s) := v in MnemonicAvx32.i_vcvtneph2hf8 (r 0) (o 1))
     (fun v => let (o, a, r, n, e, s) := v in MnemonicAvx.i_vcvtneph2hf8 (r 0) (widen_op (o 1)));
   mkB "vcvtneph2hf8s" (fun v => let (o, a, r, n, e, s) := v in MnemonicAvx32.i_vcvtneph2hf8s (r 0) (o 1))
     (fun v => let (o, a, r, n, e, s) := v in MnemonicAvx.i_vcvtneph2hf8s (r 0) (widen_op (o 1)));
   mkB "vcvtpd2ph" (fun v => let (o, a, r, n, e, s) := v in MnemonicAvx32.i_vcvtpd2ph (r 0) (o 1))
     (fun v => let (o, a, r, n, e, s) := v in MnemonicAvx.i_vcvtpd2ph (r 0) (widen_op (o 1)));
   mkB "vcvtpd2qq" (fun v => let (o, a, r, n, e, s) := v in MnemonicAvx32.i_vcvtpd2qq (r 0) (o 1))
     (fun v => let (o, a, r, n, e, s) := v in MnemonicAvx.i_vcvtpd2qq (r 0) (widen_op (o 1)));
   mkB "vcvtpd2udq" (fun v => let (o, a, r, n, e, s) := v in MnemonicAvx32.i_vcvtpd2udq (r 0) (o 1))
     (fun v => let (o, a, r, n, e, s) := v in MnemonicAvx.i_vcvtpd2udq (r 0) (widen_op (o 1)));
   mkB "vcvtpd2uqq" (fun v => let (o, a, r, n, e, s) := v in MnemonicAvx32.i_vcvtpd2uqq (r 0) (o 1))
     (fun v => let (o, a, r, n, e, s) := v in MnemonicAvx.i_vcvtpd2uqq (r 0) (widen_op (o 1)));
   mkB "vcvtph2dq" (fun v => let (o, a, r, n, e, s) := v in MnemonicAvx32.i_vcvtph2dq (r 0) (o 1))
     (fun v => let (o, a, r, n, e, s) := v in MnemonicAvx.i_vcvtph2dq (r 0) (widen_op (o 1)));
   mkB "vcvtph2ibs" (fun v => let (o, a, r, n, e, s) := v in MnemonicAvx32.i_vcvtph2ibs (r 0) (o 1))
     (fun v => let (o, a, r, n, e, s) := v in MnemonicAvx.i_vcvtph2ibs (r 0) (widen_op (o 1)));
   mkB "vcvtph2iubs" (fun v => let (o, a, r, n, e, s) := v in MnemonicAvx32.i_vcvtph2iubs (r 0) (o 1))
     (fun v => let (o, a, r, n, e, s) := v in MnemonicAvx.i_vcvtph2iubs (r 0) (widen_op (o 1)));
   mkB "vcvtph2pd" (fun v => let (o, a, r, n, e, s) := v in MnemonicAvx32.i_vcvtph2pd (r 0) (o 1))
     (fun v => let (o, a, r, n, e, s) := v in MnemonicAvx.i_vcvtph2pd (r 0) (widen_op (o 1)));
   mkB "vcvtph2psx" (fun v => let (o, a, r, n, e, s) := v in MnemonicAvx32.i_vcvtph2psx (r 0) (o 1))
     (fun v => let (o, a, r, n, e, s) := v in MnemonicAvx.i_vcvtph2psx (r 0) (widen_op (o 1)));
   mkB "vcvtph2qq" (fun v => let (o, a, r, n, e, s) := v in MnemonicAvx32.i_vcvtph2qq (r 0) (o 1))
     (fun v => let (o, a, r, n, e, s) := v in MnemonicAvx.i_vcvtph2qq (r 0) (widen_op (o 1)));
   mkB "vcvtph2udq" (fun v => let (o, a, r, n, e, s) := v in MnemonicAvx32.i_vcvtph2udq (r 0) (o 1))
     (fun v => let (o, a, r, n, e, s) := v in MnemonicAvx.i_vcvtph2udq (r 0) (widen_op (o 1)));
   mkB "vcvtph2uqq" (fun v => let (o, a, r, n, e, s) := v in MnemonicAvx32.i_vcvtph2uqq (r 0) (o 1))
     (fun v => let (o, a, r, n, e, s) := v in MnemonicAvx.i_vcvtph2uqq (r 0) (widen_op (o 1)))].
Lemma sims60_ok : Forall same sims60.
Proof. unfold sims60.
row. { unfold MnemonicAvx32.i_vcvtdq2ph, MnemonicAvx.i_vcvtdq2ph. row_sim. }
row. { unfold MnemonicAvx32.i_vcvthf82ph, MnemonicAvx.i_vcvthf82ph. row_sim. }
row. { unfold MnemonicAvx32.i_vcvtne2ph2bf8, MnemonicAvx.i_vcvtne2ph2bf8. row_sim. }
row. { unfold MnemonicAvx32.i_vcvtne2ph2bf8s, MnemonicAvx.i_vcvtne2ph2bf8s. row_sim. }
row. { unfold MnemonicAvx32.i_vcvtne2ph2hf8, MnemonicAvx.i_vcvtne2ph2hf8. row_sim. }
row. { unfold MnemonicAvx32.i_vcvtne2ph2hf8s, MnemonicAvx.i_vcvtne2ph2hf8s. row_sim. }
row. { unfold MnemonicAvx32.i_vcvtne2ps2bf16, MnemonicAvx.i_vcvtne2ps2bf16. row_sim. }
row. { unfold MnemonicAvx32.i_vcvtnebf162ibs, MnemonicAvx.i_vcvtnebf162ibs. row_sim. }
row. { unfold MnemonicAvx32.i_vcvtnebf162iubs, MnemonicAvx.i_vcvtnebf162iubs. row_sim. }
row. { unfold MnemonicAvx32.i_vcvtneph2bf8, MnemonicAvx.i_vcvtneph2bf8. row_sim. }
row. { unfold MnemonicAvx32.i_vcvtneph2bf8s, MnemonicAvx.i_vcvtneph2bf8s. row_sim. }
row. { unfold MnemonicAvx32.i_vcvtneph2hf8, MnemonicAvx.i_vcvtneph2hf8. row_sim. }
row. { unfold MnemonicAvx32.i_vcvtneph2hf8s, MnemonicAvx.i_vcvtneph2hf8s. row_sim. }
row. { unfold MnemonicAvx32.i_vcvtpd2ph, MnemonicAvx.i_vcvtpd2ph. row_sim. }
row. { unfold MnemonicAvx32.i_vcvtpd2qq, MnemonicAvx.i_vcvtpd2qq. row_sim. }
row. { unfold MnemonicAvx32.i_vcvtpd2udq, MnemonicAvx.i_vcvtpd2udq. row_sim. }
row. { unfold MnemonicAvx32.i_vcvtpd2uqq, MnemonicAvx.i_vcvtpd2uqq. row_sim. }
row. { unfold MnemonicAvx32.i_vcvtph2dq, MnemonicAvx.i_vcvtph2dq. row_sim. }
row. { unfold MnemonicAvx32.i_vcvtph2ibs, MnemonicAvx.i_vcvtph2ibs. row_sim. }
row. { unfold MnemonicAvx32.i_vcvtph2iubs, MnemonicAvx.i_vcvtph2iubs. row_sim. }
row. { unfold MnemonicAvx32.i_vcvtph2pd, MnemonicAvx.i_vcvtph2pd. row_sim. }
row. { unfold MnemonicAvx32.i_vcvtph2psx, MnemonicAvx.i_vcvtph2psx. row_sim. }
row. { unfold MnemonicAvx32.i_vcvtph2qq, MnemonicAvx.i_vcvtph2qq. row_sim. }
row. { unfold MnemonicAvx32.i_vcvtph2udq, MnemonicAvx.i_vcvtph2udq. row_sim. }
row. { unfold MnemonicAvx32.i_vcvtph2uqq, MnemonicAvx.i_vcvtph2uqq. row_sim. }
apply Forall_nil. Qed.
Definition sims61 : list b_entry :=
  [mkB "vcvtph2uw" (fun v => let (o, a, r, n, e, s) := v in MnemonicAvx32.i_vcvtph2uw (r 0) (o 1))
     (fun v => let (o, a, r, n, e, s) := v in MnemonicAvx.i_vcvtph2uw (r 0) (widen_op (o 1)));
   mkB "vcvtph2w" (fun v => let (o, a, r, n, e, s) := v in MnemonicAvx32.i_vcvtph2w (r 0) (o 1))
     (fun v => let (o, a, r, n, e, s) := v in MnemonicAvx.i_vcvtph2w (r 0) (widen_op (o 1)));
   mkB "vcvtps2ibs" (fun v => let (o, a, r, n, e, s) := v in MnemonicAvx32.i_vcvtps2ibs (r 0) (o 1))
     (fun v => let (o, a, r, n, e, s) := v in MnemonicAvx.i_vcvtps2ibs (r 0) (widen_op (o 1)));
   mkB "vcvtps2iubs" (fun v => let (o, a, r, n, e, s) := v in MnemonicAvx32.i_vcvtps2iubs (r 0) (o 1))
     (fun v => let (o, a, r, n, e, s) := v in MnemonicAvx.i_vcvtps2iubs (r 0) (widen_op (o 1)));
   mkB "vcvtps2phx" (fun v => let (o, a, r, n, e, s) := v in MnemonicAvx32.i_vcvtps2phx (r 0) (o 1))
     (fun v => let (o, a, r, n, e, s) := v in MnemonicAvx.i_vcvtps2phx (r 0) (widen_op (o 1)));
   mkB "vcvtps2qq" (fun v => let (o, a, r, n, e, s) := v in MnemonicAvx32.i_vcvtps2qq (r 0) (o 1))
     (fun v => let (o, a, r, n, e, s) := v in MnemonicAvx.i_vcvtps2qq (r 0) (widen_op (o 1)));
   mkB "vcvtps2udq" (fun v => let (o, a, r, n, e, s) := v in MnemonicAvx32.i_vcvtps2udq (r 0) (o 1))
     (fun v => let (o, a, r, n, e, s) := v in MnemonicAvx.i_vcvtps2udq (r 0) (widen_op (o 1)));
   mkB "vcvtps2uqq" (fun v => let (o, a, r, n, e, s) := v in MnemonicAvx32.i_vcvtps2uqq (r 0) (o 1))
     (fun v => let (o, a, r, n, e, s) := v in MnemonicAvx.i_vcvtps2uqq (r 0) (widen_op (o 1)));
   mkB "vcvtqq2pd" (fun v => let (o, a, r, n, e, s) := v in MnemonicAvx32.i_vcvtqq2pd (r 0) (o 1))
     (fun v => let (o, a, r, n, e, s) := v in MnemonicAvx.i_vcvtqq2pd (r 0) (widen_op (o 1)));
   mkB "vcvtqq2ph" (fun v => let (o, a, r, n, e, s) := v in MnemonicAvx32.i_vcvtqq2ph (r 0) (o 1))
     (fun v => let (o, a, r, n, e, s) := v in MnemonicAvx.i_vcvtqq2ph (r 0) (widen_op (o 1)));
   mkB "vcvtqq2ps" (fun v => let (o, a, r, n, e, s) := v in MnemonicAvx32.i_vcvtqq2ps (r 0) (o 1))
     (fun v => let (o, a, r, n, e, s) := v in MnemonicAvx.i_vcvtqq2ps (r 0) (widen_op (o 1)));
   mkB "vcvtsd2sh" (fun v => let (o, a, r, n, e, s) := v in MnemonicAvx32.i_vcvtsd2sh (r 0) (r 1) (o 2))
     (fun v => let (o, a, r, n, e, s) := v in MnemonicAvx.i_vcvtsd2sh (r 0) (r 1) (widen_op (o 2)));
   mkB "vcvtsd2usi" (fun v => let (o, a, r, n, e, s) := v in MnemonicAvx32.i_vcvtsd2usi (r 0) (o 1))
     (fun v => let (o, a, r, n, e, s) := v in MnemonicAvx.i_vcvtsd2usi (r 0) (widen_op (o 1)));
   mkB "vcvtsh2sd" (fun v => let (o, a, r, n, e, s) := v in MnemonicAvx32.i_vcvtsh2sd (r 0) (r 1) (o 2))
     (fun v => let (o, a, r, n, e, s) := v in MnemonicAvx.i_vcvtsh2sd (r 0) (r 1) (widen_op (o 2)));
   mkB "vcvtsh2si" (fun v => let (o, a, r, n, e, s) := v in MnemonicAvx32.i_vcvtsh2si (r 0) (o 1))
     (fun v => let (o, a, r, n, e, s) := v in MnemonicAvx.i_vcvtsh2si (r 0) (widen_op (o 1)));
   mkB "vcvtsh2ss" (fun v => let (o, a, r, n, e, s) := v in MnemonicAvx32.i_vcvtsh2ss (r 0) (r 1) (o 2))
     (fun v => let (o, a, r, n, e, s) := v in MnemonicAvx.i_vcvtsh2ss (r 0) (r 1) (widen_op (o 2)));
   mkB "vcvtsh2usi" (fun v => let (o, a, r, n, e, s) := v in MnemonicAvx32.i_vcvtsh2usi (r 0) (o 1))
     (fun v => let (o, a, r, n, e, s) := v in MnemonicAvx.i_vcvtsh2usi (r 0) (widen_op (o 1)));
   mkB "vcvtsi2sh" (fun v => let (o, a, r, n, e, s) := v in MnemonicAvx32.i_vcvtsi2sh (r 0) (r 1) (o 2))
     (fun v => let (o, a, r, n, e, s) := v in MnemonicAvx.i_vcvtsi2sh (r 0) (r 1) (widen_op (o 2)));
   mkB "vcvtss2sh" (fun v => let (o, a, r, n, e, s) := v in MnemonicAvx32.i_vcvtss2sh (r 0) (r 1) (o 2))
     (fun v => let (o, a, r, n, e, s) := v in MnemonicAvx.i_vcvtss2sh (r 0) (r 1) (widen_op (o 2)));
   mkB "vcvtss2usi" (fun v => let (o, a, r, n, e, s) := v in MnemonicAvx32.i_vcvtss2usi (r 0) (o 1))
     (fun v => let (o, a, r, n, e, s) := v in MnemonicAvx.i_vcvtss2usi (r 0) (widen_op (o 1)));
   mkB "vcvttnebf162ibs" (fun v => let (o, a, r, n, e, s) := v in MnemonicAvx32.i_vcvttnebf162ibs (r 0) (o 1))
     (fun v => let (o, a, r, n, e, s) := v in MnemonicAvx.i_vcvttnebf162ibs (r 0) (widen_op (o 1)));
   mkB "vcvttnebf162iubs" (fun v => let (o, a, r, n, e, s) := v in MnemonicAvx32.i_vcvttnebf162iubs (r 0) (o 1))
     (fun v => let (o, a, r, n, e, s) := v in MnemonicAvx.i_vcvttnebf162iubs (r 0) (widen_op (o 1)));
   mkB "vcvttpd2dqs" (fun v => let (o, a, r, n, e, s) := v in MnemonicAvx32.i_vcvttpd2dqs (r 0) (o 1))
     (fun v => let (o, a, r, n, e, s) := v in MnemonicAvx.i_vcvttpd2dqs (r 0) (widen_op (o 1)));
   mkB "vcvttpd2qq" (fun v => let (o, a, r, n, e, s) := v in MnemonicAvx32.i_vcvttpd2qq (r 0) (o 1))
     (fun v => let (o, a, r, n, e, s) := v in MnemonicAvx.i_vcvttpd2qq (r 0) (widen_op (o 1)));
   mkB "vcvttpd2qqs" (fun v => let (o, a, r, n, e, s) := v in MnemonicAvx32.i_vcvttpd2qqs (r 0) (o 1))
     (fun v => let (o, a, r, n, e, s) := v in MnemonicAvx.i_vcvttpd2qqs (r 0) (widen_op (o 1)))].
Lemma sims61_ok : Forall same sims61.
Proof. unfold sims61.
row. { unfold MnemonicAvx32.i_vcvtph2uw, MnemonicAvx.i_vcvtph2uw. row_sim. }
row. { unfold MnemonicAvx32.i_vcvtph2w, MnemonicAvx.i_vcvtph2w. row_sim. }
row. { unfold MnemonicAvx32.i_vcvtps2ibs, MnemonicAvx.i_vcvtps2ibs. row_sim. }
row. { unfold MnemonicAvx32.i_vcvtps2iubs, MnemonicAvx.i_vcvtps2iubs. row_sim. }
row. { unfold MnemonicAvx32.i_vcvtps2phx, MnemonicAvx.i_vcvtps2phx. row_sim. }
row. { unfold MnemonicAvx32.i_vcvtps2qq, MnemonicAvx.i_vcvtps2qq. row_sim. }
row. { unfold MnemonicAvx32.i_vcvtps2udq, MnemonicAvx.i_vcvtps2udq. row_sim. }
row. { unfold MnemonicAvx32.i_vcvtps2uqq, MnemonicAvx.i_vcvtps2uqq. row_sim. }
row. { unfold MnemonicAvx32.i_vcvtqq2pd, MnemonicAvx.i_vcvtqq2pd. row_sim. }
row. { unfold MnemonicAvx32.i_vcvtqq2ph, MnemonicAvx.i_vcvtqq2ph. row_sim. }
row. { unfold MnemonicAvx32.i_vcvtqq2ps, MnemonicAvx.i_vcvtqq2ps. row_sim. }
row. { unfold MnemonicAvx32.i_vcvtsd2sh, MnemonicAvx.i_vcvtsd2sh. row_sim. }
row. { unfold MnemonicAvx32.i_vcvtsd2usi, MnemonicAvx.i_vcvtsd2usi. row_sim. }
row. { unfold MnemonicAvx32.i_vcvtsh2sd, MnemonicAvx.i_vcvtsh2sd. row_sim. }
row. { unfold MnemonicAvx32.i_vcvtsh2si, MnemonicAvx.i_vcvtsh2si. row_sim. }
row. { unfold MnemonicAvx32.i_vcvtsh2ss, MnemonicAvx.i_vcvtsh2ss. row_sim. }
row. { unfold MnemonicAvx32.i_vcvtsh2usi, MnemonicAvx.i_vcvtsh2usi. row_sim. }
row. { unfold MnemonicAvx32.i_vcvtsi2sh, MnemonicAvx.i_vcvtsi2sh. row_sim. }
row. { unfold MnemonicAvx32.i_vcvtss2sh, MnemonicAvx.i_vcvtss2sh. row_sim. }
row. { unfold MnemonicAvx32.i_vcvtss2usi, MnemonicAvx.i_vcvtss2usi. row_sim. }
row. { unfold MnemonicAvx32.i_vcvttnebf162ibs, MnemonicAvx.i_vcvttnebf162ibs. row_sim. }
row. { unfold MnemonicAvx32.i_vcvttnebf162iubs, MnemonicAvx.i_vcvttnebf162iubs. row_sim. }
row. { unfold MnemonicAvx32.i_vcvttpd2dqs, MnemonicAvx.i_vcvttpd2dqs. row_sim. }
row. { unfold MnemonicAvx32.i_vcvttpd2qq, MnemonicAvx.i_vcvttpd2qq. row_sim. }
row. { unfold MnemonicAvx32.i_vcvttpd2qqs, MnemonicAvx.i_vcvttpd2qqs. row_sim. }
apply Forall_nil. Qed.
Definition sims62 : list b_entry :=
  [mkB "vcvttpd2udq" (fun v => let (o, a, r, n, e, s) := v in MnemonicAvx32.i_vcvttpd2udq (r 0) (o 1))
     (fun v => let (o, a, r, n, e, s) := v in MnemonicAvx.i_vcvttpd2udq (r 0) (widen_op (o 1)));
   mkB "vcvttpd2udqs" (fun v => let (o, a, r, n, e, s) := v in MnemonicAvx32.i_vcvttpd2udqs (r 0) (o 1))
     (fun v => let (o, a, r, n, e, s) := v in MnemonicAvx.i_vcvttpd2udqs (r 0) (widen_op (o 1)));
   mkB "vcvttpd2uqq" (fun v => let (o, a, r, n, e, s) := v in MnemonicAvx32.i_vcvttpd2uqq (r 0) (o 1))
     (fun v => let (o, a, r, n, e, s) := v in MnemonicAvx.i_vcvttpd2uqq (r 0) (widen_op (o 1)));
   mkB "vcvttpd2uqqs" (fun v => let (o, a, r, n, e, s) := v in MnemonicAvx32.i_vcvttpd2uqqs (r 0) (o 1))
     (fun v => let (o, a, r, n, e, s) := v in MnemonicAvx.i_vcvttpd2uqqs (r 0) (widen_op (o 1)));
   mkB "vcvttph2dq" (fun v => let (o, a, r, n, e, s) := v in MnemonicAvx32.i_vcvttph2dq (r 0) (o 1))
     (fun v => let (o, a, r, n, e, s) := v in MnemonicAvx.i_vcvttph2dq (r 0) (widen_op (o 1)));
   mkB "vcvttph2ibs" (fun v => let (o, a, r, n, e, s) := v in MnemonicAvx32.i_vcvttph2ibs (r 0) (o 1))
     (fun v => let (o, a, r, n, e, s) := v in MnemonicAvx.i_vcvttph2ibs (r 0) (widen_op (o 1)));
   mkB "vcvttph2iubs" (fun v => let (o, a, r, n, e, s) := v in MnemonicAvx32.i_vcvttph2iubs (r 0) (o 1))
     (fun v => let (o, a, r, n, e, s) := v in MnemonicAvx.i_vcvttph2iubs (r 0) (widen_op (o 1)));
   mkB "vcvttph2qq" (fun v => let (o, a, r, n, e, s) := v in MnemonicAvx32.i_vcvttph2qq (r 0) (o 1))
     (fun v => let (o, a, r, n, e, s) := v in MnemonicAvx.i_vcvttph2qq (r 0) (widen_op (o 1)));
   mkB "vcvttph2udq" (fun v => let (o, a, r, n, e, s) := v in MnemonicAvx32.i_vcvttph2udq (r 0) (o 1))
     (fun v => let (o, a, r, n, e, s) := v in MnemonicAvx.i_vcvttph2udq (r 0) (widen_op (o 1)));
   mkB "vcvttph2uqq" (fun v => let (o, a, r, n, e, s) := v in MnemonicAvx32.i_vcvttph2uqq (r 0) (o 1))
     (fun v => let (o, a, r, n, e, s) := v in MnemonicAvx.i_vcvttph2uqq (r 0) (widen_op (o 1)));
   mkB "vcvttph2uw" (fun v => let (o, a, r, n, e, s) := v in MnemonicAvx32.i_vcvttph2uw (r 0) (o 1))
     (fun v => let (o, a, r, n, e, s) := v in MnemonicAvx.i_vcvttph2uw (r 0) (widen_op (o 1)));
   mkB "vcvttph2w" (fun v => let (o, a, r, n, e, s) := v in MnemonicAvx32.i_vcvttph2w (r 0) (o 1))
     (fun v => let (o, a, r, n, e, s) := v in MnemonicAvx.i_vcvttph2w (r 0) (widen_op (o 1)));
   mkB "vcvttps2dqs" (fun v => let (o, a, r, n, e, s) := v in MnemonicAvx32.i_vcvttps2dqs (r 0) (o 1))
     (fun v => let (o, a, r, n, e, s) := v in MnemonicAvx.i_vcvttps2dqs (r 0) (widen_op (o 1)));
   mkB "vcvttps2ibs" (fun v => let (o, a, r, n, e, s) := v in MnemonicAvx32.i_vcvttps2ibs (r 0) (o 1))
     (fun v => let (o, a, r, n, e, s) := v in MnemonicAvx.i_vcvttps2ibs (r 0) (widen_op (o 1)));
   mkB "vcvttps2iubs" (fun v => let (o, a, r, n, e, s) := v in MnemonicAvx32.i_vcvttps2iubs (r 0) (o 1))
     (fun v => let (o, a, r, n, e, s) := v in MnemonicAvx.i_vcvttps2iubs (r 0) (widen_op (o 1)));
   mkB "vcvttps2qq" (fun v => let (o, a, r, n, e, s) := v in MnemonicAvx32.i_vcvttps2qq (r 0) (o 1))
     (fun v => let (o, a, r, n, e, s) := v in MnemonicAvx.i_vcvttps2qq (r 0) (widen_op (o 1)));
   mkB "vcvttps2qqs" (fun v => let (o, a, r, n, e, s) := v in MnemonicAvx32.i_vcvttps2qqs (r 0) (o 1))
     (fun v => let (o, a, r, n, e, s) := v in MnemonicAvx.i_vcvttps2qqs (r 0) (widen_op (o 1)));
   mkB "vcvttps2udq" (fun v => let (o, a, r, n, e, s) := v in MnemonicAvx32.i_vcvttps2udq (r 0) (o 1))
     (fun v => let (o, a, r, n, e, s) := v in MnemonicAvx.i_vcvttps2udq (r 0) (widen_op (o 1)));
   mkB "vcvttps2udqs" (fun v => let (o, a, r, n, e, s) := v in MnemonicAvx32.i_vcvttps2udqs (r 0) (o 1))
     (fun v => let (o, a, r, n, e, s) := v in MnemonicAvx.i_vcvttps2udqs (r 0) (widen_op (o 1)));
   mkB "vcvttps2uqq" (fun v => let (o, a, r, n, e, s) := v in MnemonicAvx32.i_vcvttps2uqq (r 0) (o 1))
     (fun v => let (o, a, r, n, e, s) := v in MnemonicAvx.i_vcvttps2uqq (r 0) (widen_op (o 1)));
   mkB "vcvttps2uqqs" (fun v => let (o, a, r, n, e, s) := v in MnemonicAvx32.i_vcvttps2uqqs (r 0) (o 1))
     (fun v => let (o, a, r, n, e, s) := v in MnemonicAvx.i_vcvttps2uqqs (r 0) (widen_op (o 1)));
   mkB "vcvttsd2sis" (fun v => let (o, a, r, n, e, s) := v in MnemonicAvx32.i_vcvttsd2sis (r 0) (o 1))
     (fun v => let (o, a, r, n, e, s) := v in MnemonicAvx.i_vcvttsd2sis (r 0) (widen_op (o 1)));
   mkB "vcvttsd2usi" (fun v => let (o, a, r, n, e, s) := v in MnemonicAvx32.i_vcvttsd2usi (r 0) (o 1))
     (fun v => let (o, a, r, n, e, s) := v in MnemonicAvx.i_vcvttsd2usi (r 0) (widen_op (o 1)));
   mkB "vcvttsd2usis" (fun v => let (o, a, r, n, e, s) := v in MnemonicAvx32.i_vcvttsd2usis (r 0) (o 1))
     (fun v => let (o, a, r, n, e, s) := v in MnemonicAvx.i_vcvttsd2usis (r 0) (widen_op (o 1)));
   mkB "vcvttsh2si" (fun v => let (o, a, r, n, e, s) := v in MnemonicAvx32.i_vcvttsh2si (r 0) (o 1))
     (fun v => let (o, a, r, n, e, s) := v in MnemonicAvx.i_vcvttsh2si (r 0) (widen_op (o 1)))].
Lemma sims62_ok : Forall same sims62.
Proof. unfold sims62.
row. { unfold MnemonicAvx32.i_vcvttpd2udq, MnemonicAvx.i_vcvttpd2udq. row_sim. }
row. { unfold MnemonicAvx32.i_vcvttpd2udqs, MnemonicAvx.i_vcvttpd2udqs. row_sim. }
row. { unfold MnemonicAvx32.i_vcvttpd2uqq, MnemonicAvx.i_vcvttpd2uqq. row_sim. }
row. { unfold MnemonicAvx32.i_vcvttpd2uqqs, MnemonicAvx.i_vcvttpd2uqqs. row_sim. }
row. { unfold MnemonicAvx32.i_vcvttph2dq, MnemonicAvx.i_vcvttph2dq. row_sim. }
row. { unfold MnemonicAvx32.i_vcvttph2ibs, MnemonicAvx.i_vcvttph2ibs. row_sim. }
row. { unfold MnemonicAvx32.i_vcvttph2iubs, MnemonicAvx.i_vcvttph2iubs. row_sim. }
row. { unfold MnemonicAvx32.i_vcvttph2qq, MnemonicAvx.i_vcvttph2qq. row_sim. }
row. { unfold MnemonicAvx32.i_vcvttph2udq, MnemonicAvx.i_vcvttph2udq. row_sim. }
row. { unfold MnemonicAvx32.i_vcvttph2uqq, MnemonicAvx.i_vcvttph2uqq. row_sim. }
row. { unfold MnemonicAvx32.i_vcvttph2uw, MnemonicAvx.i_vcvttph2uw. row_sim. }
row. { unfold MnemonicAvx32.i_vcvttph2w, MnemonicAvx.i_vcvttph2w. row_sim. }
row. { unfold MnemonicAvx32.i_vcvttps2dqs, MnemonicAvx.i_vcvttps2dqs. row_sim. }
row. { unfold MnemonicAvx32.i_vcvttps2ibs, MnemonicAvx.i_vcvttps2ibs. row_sim. }
row. { unfold MnemonicAvx32.i_vcvttps2iubs, MnemonicAvx.i_vcvttps2iubs. row_sim. }
row. { unfold MnemonicAvx32.i_vcvttps2qq, MnemonicAvx.i_vcvttps2qq. row_sim. }
row. { unfold MnemonicAvx32.i_vcvttps2qqs, MnemonicAvx.i_vcvttps2qqs. row_sim. }
row. { unfold MnemonicAvx32.i_vcvttps2udq, MnemonicAvx.i_vcvttps2udq. row_sim. }
row. { unfold MnemonicAvx32.i_vcvttps2udqs, MnemonicAvx.i_vcvttps2udqs. row_sim. }
row. { unfold MnemonicAvx32.i_vcvttps2uqq, MnemonicAvx.i_vcvttps2uqq. row_sim. }
row. { unfold MnemonicAvx32.i_vcvttps2uqqs, MnemonicAvx.i_vcvttps2uqqs. row_sim. }
row. { unfold MnemonicAvx32.i_vcvttsd2sis, MnemonicAvx.i_vcvttsd2sis. row_sim. }
row. { unfold MnemonicAvx32.i_vcvttsd2usi, MnemonicAvx.i_vcvttsd2usi. row_sim. }
row. { unfold MnemonicAvx32.i_vcvttsd2usis, MnemonicAvx.i_vcvttsd2usis. row_sim. }
row. { unfold MnemonicAvx32.i_vcvttsh2si, MnemonicAvx.i_vcvttsh2si. row_sim. }
apply Forall_nil. Qed.
Definition sims63 : list b_entry :=
  [mkB "vcvttsh2usi" (fun v => let (o, a, r, n, e, s) := v in MnemonicAvx32.i_vcvttsh2usi (r 0) (o 1))
     (fun v => let (o, a, r, n, e, s) := v in MnemonicAvx.i_vcvttsh2usi (r 0) (widen_op (o 1)));
   mkB "vcvttss2sis" (fun v => let (o, a, r, n, e, s) := v in MnemonicAvx32.i_vcvttss2sis (r 0) (o 1))
     (fun v => let (o, a, r, n, e, s) := v in MnemonicAvx.i_vcvttss2sis (r 0) (widen_op (o 1)));
   mkB "vcvttss2usi" (fun v => let (o, a, r, n, e, s) := v in MnemonicAvx32.i_vcvttss2usi (r 0) (o 1))
     (fun v => let (o, a, r, n, e, s) := v in MnemonicAvx.i_vcvttss2usi (r 0) (widen_op (o 1)));
   mkB "vcvttss2usis" (fun v => let (o, a, r, n, e, s) := v in MnemonicAvx32.i_vcvttss2usis (r 0) (o 1))
     (fun v => let (o, a, r, n, e, s) := v in MnemonicAvx.i_vcvttss2usis (r 0) (widen_op (o 1)));
   mkB "vcvtudq2pd" (fun v => let (o, a, r, n, e, s) := v in MnemonicAvx32.i_vcvtudq2pd (r 0) (o 1))
     (fun v => let (o, a, r, n, e, s) := v in MnemonicAvx.i_vcvtudq2pd (r 0) (widen_op (o 1)));
   mkB "vcvtudq2ph" (fun v => let (o, a, r, n, e, s) := v in MnemonicAvx32.i_vcvtudq2ph (r 0) (o 1))
     (fun v => let (o, a, r, n, e, s) := v in MnemonicAvx.i_vcvtudq2ph (r 0) (widen_op (o 1)));
   mkB "vcvtudq2ps" (fun v => let (o, a, r, n, e, s) := v in MnemonicAvx32.i_vcvtudq2ps (r 0) (o 1))
     (fun v => let (o, a, r, n, e, s) := v in MnemonicAvx.i_vcvtudq2ps (r 0) (widen_op (o 1)));
   mkB "vcvtuqq2pd" (fun v => let (o, a, r, n, e, s) := v in MnemonicAvx32.i_vcvtuqq2pd (r 0) (o 1))
     (fun v => let (o, a, r, n, e, s) := v in MnemonicAvx.i_vcvtuqq2pd (r 0) (widen_op (o 1)));
   mkB "vcvtuqq2ph" (fun v => let (o, a, r, n, e, s) := v in MnemonicAvx32.i_vcvtuqq2ph (r 0) (o 1))
     (fun v => let (o, a, r, n, e, s) := v in MnemonicAvx.i_vcvtuqq2ph (r 0) (widen_op (o 1)));
   mkB "vcvtuqq2ps" (fun v => let (o, a, r, n, e, s) := v in MnemonicAvx32.i_vcvtuqq2ps (r 0) (o 1))
     (fun v => let (o, a, r, n, e, s) := v in MnemonicAvx.i_vcvtuqq2ps (r 0) (widen_op (o 1)));
   mkB "vcvtusi2sd" (fun v => let (o, a, r, n, e, s) := v in MnemonicAvx32.i_vcvtusi2sd (r 0) (r 1) (o 2))
     (fun v => let (o, a, r, n, e, s) := v in MnemonicAvx.i_vcvtusi2sd (r 0) (r 1) (widen_op (o 2)));
   mkB "vcvtusi2sh" (fun v => let (o, a, r, n, e, s) := v in MnemonicAvx32.i_vcvtusi2sh (r 0) (r 1) (o 2))
     (fun v => let (o, a, r, n, e, s) := v in MnemonicAvx.i_vcvtusi2sh (r 0) (r 1) (widen_op (o 2)));
   mkB "vcvtusi2ss" (fun v => let (o, a, r, n, e, s) := v in MnemonicAvx32.i_vcvtusi2ss (r 0) (r 1) (o 2))
     (fun v => let (o, a, r, n, e, s) := v in MnemonicAvx.i_vcvtusi2ss (r 0) (r 1) (widen_op (o 2)));
   mkB "vcvtuw2ph" (fun v => let (o, a, r, n, e, s) := v in MnemonicAvx32.i_vcvtuw2ph (r 0) (o 1))
     (fun v => let (o, a, r, n, e, s) := v in MnemonicAvx.i_vcvtuw2ph (r 0) (widen_op (o 1)));
   mkB "vcvtw2ph" (fun v => let (o, a, r, n, e, s) := v in MnemonicAvx32.i_vcvtw2ph (r 0) (o 1))
     (fun v => let (o, a, r, n, e, s) := v in MnemonicAvx.i_vcvtw2ph (r 0) (widen_op (o 1)));
   mkB "vdbpsadbw" (fun v => let (o, a, r, n, e, s) := v in MnemonicAvx32.i_vdbpsadbw (r 0) (r 1) (o 2) (n 3))
     (fun v => let (o, a, r, n, e, s) := v in MnemonicAvx.i_vdbpsadbw (r 0) (r 1) (widen_op (o 2)) (n 3));
   mkB "vdivnepbf16" (fun v => let (o, a, r, n, e, s) := v in MnemonicAvx32.i_vdivnepbf16 (r 0) (r 1) (o 2))
     (fun v => let (o, a, r, n, e, s) := v in MnemonicAvx.i_vdivnepbf16 (r 0) (r 1) (widen_op (o 2)));
   mkB "vdivph" (fun v => let (o, a, r, n, e, s) := v in MnemonicAvx32.i_vdivph (r 0) (o 1) (o 2))
     (fun v => let (o, a, r, n, e, s) := v in MnemonicAvx.i_vdivph (r 0) (widen_op (o 1)) (widen_op (o 2)));
   mkB "vdivsh" (fun v => let (o, a, r, n, e, s) := v in MnemonicAvx32.i_vdivsh (r 0) (o 1) (o 2))
     (fun v => let (o, a, r, n, e, s) := v in MnemonicAvx.i_vdivsh (r 0) (widen_op (o 1)) (widen_op (o 2)));
   mkB "vdpbf16ps" (fun v => let (o, a, r, n, e, s) := v in MnemonicAvx32.i_vdpbf16ps (r 0) (r 1) (o 2))
     (fun v => let (o, a, r, n, e, s) := v in MnemonicAvx.i_vdpbf16ps (r 0) (r 1) (widen_op (o 2)));
   mkB "vdpphps" (fun v => let (o, a, r, n, e, s) := v in MnemonicAvx32.i_vdpphps (r 0) (r 1) (o 2))
     (fun v => let (o, a, r, n, e, s) := v in MnemonicAvx.i_vdpphps (r 0) (r 1) (widen_op (o 2)));
   mkB "vexp2pd" (fun v => let (o, a, r, n, e, s) := v in MnemonicAvx32.i_vexp2pd (r 0) (o 1))
     (fun v => let (o, a, r, n, e, s) := v in MnemonicAvx.i_vexp2pd (r 0) (widen_op (o 1)));
   mkB "vexp2ps" (fun v => let (o, a, r, n, e, s) := v in MnemonicAvx32.i_vexp2ps (r 0) (o 1))
     (fun v => let (o, a, r, n, e, s) := v in MnemonicAvx.i_vexp2ps (r 0) (widen_op (o 1)));
   mkB "vexpandpd" (fun v => let (o, a, r, n, e, s) := v in MnemonicAvx32.i_vexpandpd (r 0) (o 1))
     (fun v => let (o, a, r, n, e, s) := v in MnemonicAvx.i_vexpandpd (r 0) (widen_op (o 1)));
   mkB "vexpandps" (fun v => let (o, a, r, n, e, s) := v in MnemonicAvx32.i_vexpandps (r 0) (o 1))
     (fun v => let (o, a, r, n, e, s) := v in MnemonicAvx.i_vexpandps (r 0) (widen_op (o 1)))].
Lemma sims63_ok : Forall same sims63.
Proof. unfold sims63.
row. { unfold MnemonicAvx32.i_vcvttsh2usi, MnemonicAvx.i_vcvttsh2usi. row_sim. }
row. { unfold MnemonicAvx32.i_vcvttss2sis, MnemonicAvx.i_vcvttss2sis. row_sim. }
row. { unfold MnemonicAvx32.i_vcvttss2usi, MnemonicAvx.i_vcvttss2usi. row_sim. }
row. { unfold MnemonicAvx32.i_vcvttss2usis, MnemonicAvx.i_vcvttss2usis. row_sim. }
row. { unfold MnemonicAvx32.i_vcvtudq2pd, MnemonicAvx.i_vcvtudq2pd. row_sim. }
row. { unfold MnemonicAvx32.i_vcvtudq2ph, MnemonicAvx.i_vcvtudq2ph. row_sim. }
row. { unfold MnemonicAvx32.i_vcvtudq2ps, MnemonicAvx.i_vcvtudq2ps. row_sim. }
row. { unfold MnemonicAvx32.i_vcvtuqq2pd, MnemonicAvx.i_vcvtuqq2pd. row_sim. }
row. { unfold MnemonicAvx32.i_vcvtuqq2ph, MnemonicAvx.i_vcvtuqq2ph. row_sim. }
row. { unfold MnemonicAvx32.i_vcvtuqq2ps, MnemonicAvx.i_vcvtuqq2ps. row_sim. }
row. { unfold MnemonicAvx32.i_vcvtusi2sd, MnemonicAvx.i_vcvtusi2sd. row_sim. }
row. { unfold MnemonicAvx32.i_vcvtusi2sh, MnemonicAvx.i_vcvtusi2sh. row_sim. }
row. { unfold MnemonicAvx32.i_vcvtusi2ss, MnemonicAvx.i_vcvtusi2ss. row_sim. }
row. { unfold MnemonicAvx32.i_vcvtuw2ph, MnemonicAvx.i_vcvtuw2ph. row_sim. }
row. { unfold MnemonicAvx32.i_vcvtw2ph, MnemonicAvx.i_vcvtw2ph. row_sim. }
row. { unfold MnemonicAvx32.i_vdbpsadbw, MnemonicAvx.i_vdbpsadbw. row_sim. }
row. { unfold MnemonicAvx32.i_vdivnepbf16, MnemonicAvx.i_vdivnepbf16. row_sim. }
row. { unfold MnemonicAvx32.i_vdivph, MnemonicAvx.i_vdivph. row_sim. }
row. { unfold MnemonicAvx32.i_vdivsh, MnemonicAvx.i_vdivsh. row_sim. }
row. { unfold MnemonicAvx32.i_vdpbf16ps, MnemonicAvx.i_vdpbf16ps. row_sim. }
row. { unfold MnemonicAvx32.i_vdpphps, MnemonicAvx.i_vdpphps. row_sim. }
row. { unfold MnemonicAvx32.i_vexp2pd, MnemonicAvx.i_vexp2pd. row_sim. }
row. { unfold MnemonicAvx32.i_vexp2ps, MnemonicAvx.i_vexp2ps. row_sim. }
row. { unfold MnemonicAvx32.i_vexpandpd, MnemonicAvx.i_vexpandpd. row_sim. }
row. { unfold MnemonicAvx32.i_vexpandps, MnemonicAvx.i_vexpandps. row_sim. }
apply Forall_nil. Qed.
Definition sims64 : list b_entry :=
  [mkB "vextractf32x4" (fun v => let (o, a, r, n, e, s) := v in MnemonicAvx32.i_vextractf32x4 (o 0) (r 1) (n 2))
     (fun v => let (o, a, r, n, e, s) := v in MnemonicAvx.i_vextractf32x4 (widen_op (o 0)) (r 1) (n 2));
   mkB "vextractf32x8" (fun v => let (o, a, r, n, e, s) := v in MnemonicAvx32.i_vextractf32x8 (o 0) (r 1) (n 2))
     (fun v => let (o, a, r, n, e, s) := v in MnemonicAvx.i_vextractf32x8 (widen_op (o 0)) (r 1) (n 2));
   mkB "vextractf64x2" (fun v => let (o, a, r, n, e, s) := v in MnemonicAvx32.i_vextractf64x2 (o 0) (r 1) (n 2))
     (fun v => let (o, a, r, n, e, s) := v in MnemonicAvx.i_vextractf64x2 (widen_op (o 0)) (r 1) (n 2));
   mkB "vextractf64x4" (fun v => let (o, a, r, n, e, s) := v in MnemonicAvx32.i_vextractf64x4 (o 0) (r 1) (n 2))
     (fun v => let (o, a, r, n, e, s) := v in MnemonicAvx.i_vextractf64x4 (widen_op (o 0)) (r 1) (n 2));
   mkB "vextracti32x4" (fun v => let (o, a, r, n, e, s) := v in MnemonicAvx32.i_vextracti32x4 (o 0) (r 1) (n 2))
     (fun v => let (o, a, r, n, e, s) := v in MnemonicAvx.i_vextracti32x4 (widen_op (o 0)) (r 1) (n 2));
   mkB "vextracti32x8" (fun v => let (o, a, r, n, e, s) := v in MnemonicAvx32.i_vextracti32x8 (o 0) (r 1) (n 2))
     (fun v => let (o, a, r, n, e, s) := v in MnemonicAvx.i_vextracti32x8 (widen_op (o 0)) (r 1) (n 2));
   mkB "vextracti64x2" (fun v => let (o, a, r, n, e, s) := v in MnemonicAvx32.i_vextracti64x2 (o 0) (r 1) (n 2))
     (fun v => let (o, a, r, n, e, s) := v in MnemonicAvx.i_vextracti64x2 (widen_op (o 0)) (r 1) (n 2));
   mkB "vextracti64x4" (fun v => let (o, a, r, n, e, s) := v in MnemonicAvx32.i_vextracti64x4 (o 0) (r 1) (n 2))
     (fun v => let (o, a, r, n, e, s) := v in MnemonicAvx.i_vextracti64x4 (widen_op (o 0)) (r 1) (n 2));
   mkB "vfcmaddcph" (fun v => let (o, a, r, n, e, s) := v in MnemonicAvx32.i_vfcmaddcph (r 0) (r 1) (o 2))
     (fun v => let (o, a, r, n, e, s) := v in MnemonicAvx.i_vfcmaddcph (r 0) (r 1) (widen_op (o 2)));
   mkB "vfcmulcph" (fun v => let (o, a, r, n, e, s) := v in MnemonicAvx32.i_vfcmulcph (r 0) (r 1) (o 2))
     (fun v => let (o, a, r, n, e, s) := v in MnemonicAvx.i_vfcmulcph (r 0) (r 1) (widen_op (o 2)));
   mkB "vfixupimmpd" (fun v => let (o, a, r, n, e, s) := v in MnemonicAvx32.i_vfixupimmpd (r 0) (r 1) (o 2) (n 3))
     (fun v => let (o, a, r, n, e, s) := v in MnemonicAvx.i_vfixupimmpd (r 0) (r 1) (widen_op (o 2)) (n 3));
   mkB "vfixupimmps" (fun v => let (o, a, r, n, e, s) := v in MnemonicAvx32.i_vfixupimmps (r 0) (r 1) (o 2) (n 3))
     (fun v => let (o, a, r, n, e, s) := v in MnemonicAvx.i_vfixupimmps (r 0) (r 1) (widen_op (o 2)) (n 3));
   mkB "vfixupimmsd" (fun v => let (o, a, r, n, e, s) := v in MnemonicAvx32.i_vfixupimmsd (r 0) (r 1) (o 2) (n 3))
     (fun v => let (o, a, r, n, e, s) := v in MnemonicAvx.i_vfixupimmsd (r 0) (r 1) (widen_op (o 2)) (n 3));
   mkB "vfixupimmss" (fun v => let (o, a, r, n, e, s) := v in MnemonicAvx32.i_vfixupimmss (r 0) (r 1) (o 2) (n 3))
     (fun v => let (o, a, r, n, e, s) := v in MnemonicAvx.i_vfixupimmss (r 0) (r 1) (widen_op (o 2)) (n 3));
   mkB "vfmadd132nepbf16" (fun v => let (o, a, r, n, e, s) := v in MnemonicAvx32.i_vfmadd132nepbf16 (r 0) (r 1) (o 2))
     (fun v => let (o, a, r, n, e, s) := v in MnemonicAvx.i_vfmadd132nepbf16 (r 0) (r 1) (widen_op (o 2)));
   mkB "vfmadd132ph" (fun v => let (o, a, r, n, e, s) := v in MnemonicAvx32.i_vfmadd132ph (r 0) (r 1) (o 2))
     (fun v => let (o, a, r, n, e, s) := v in MnemonicAvx.i_vfmadd132ph (r 0) (r 1) (widen_op (o 2)));
   mkB "vfmadd132sh" (fun v => let (o, a, r, n, e, s) := v in MnemonicAvx32.i_vfmadd132sh (r 0) (r 1) (o 2))
     (fun v => let (o, a, r, n, e, s) := v in MnemonicAvx.i_vfmadd132sh (r 0) (r 1) (widen_op (o 2)));
   mkB "vfmadd213nepbf16" (fun v => let (o, a, r, n, e, s) := v in MnemonicAvx32.i_vfmadd213nepbf16 (r 0) (r 1) (o 2))
     (fun v => let (o, a, r, n, e, s) := v in MnemonicAvx.i_vfmadd213nepbf16 (r 0) (r 1) (widen_op (o 2)));
   mkB "vfmadd213ph" (fun v => let (o, a, r, n, e, s) := v in MnemonicAvx32.i_vfmadd213ph (r 0) (r 1) (o 2))
     (fun v => let (o, a, r, n, e, s) := v in MnemonicAvx.i_vfmadd213ph (r 0) (r 1) (widen_op (o 2)));
   mkB "vfmadd213sh" (fun v => let (o, a, r, n, e, s) := v in MnemonicAvx32.i_vfmadd213sh (r 0) (r 1) (o 2))
     (fun v => let (o, a, r, n, e, s) := v in MnemonicAvx.i_vfmadd213sh (r 0) (r 1) (widen_op (o 2)));
   mkB "vfmadd231nepbf16" (fun v => let (o, a, r, n, e, s) := v in MnemonicAvx32.i_vfmadd231nepbf16 (r 0) (r 1) (o 2))
     (fun v => let (o, a, r, n, e, s) := v in MnemonicAvx.i_vfmadd231nepbf16 (r 0) (r 1) (widen_op (o 2)));
   mkB "vfmadd231ph" (fun v => let (o, a, r, n, e, s) := v in MnemonicAvx32.i_vfmadd231ph (r 0) (r 1) (o 2))
     (fun v => let (o, a, r, n, e, s) := v in MnemonicAvx.i_vfmadd231ph (r 0) (r 1) (widen_op (o 2)));
   mkB "vfmadd231sh" (fun v => let (o, a, r, n, e, s) := v in MnemonicAvx32.i_vfmadd231sh (r 0) (r 1) (o 2))
     (fun v => let (o, a, r, n, e, s) := v in MnemonicAvx.i_vfmadd231sh (r 0) (r 1) (widen_op (o 2)));
   mkB "vfmaddcph" (fun v => let (o, a, r, n, e, s) := v in MnemonicAvx32.i_vfmaddcph (r 0) (r 1) (o 2))
     (fun v => let (o, a, r, n, e, s) := v in MnemonicAvx.i_vfmaddcph (r 0) (r 1) (widen_op (o 2)));
   mkB "vfmaddsub132ph" (fun v => let (o, a, r, n, e, s) := v in MnemonicAvx32.i_vfmaddsub132ph (r 0) (r 1) (o 2))
     (fun v => let (o, a, r, n, e, s) := v in MnemonicAvx.i_vfmaddsub132ph (r 0) (r 1) (widen_op (o 2)))].
Lemma sims64_ok : Forall same sims64.
Proof. unfold sims64.
row. { unfold MnemonicAvx32.i_vextractf32x4, MnemonicAvx.i_vextractf32x4. row_sim. }
row. { unfold MnemonicAvx32.i_vextractf32x8, MnemonicAvx.i_vextractf32x8. row_sim. }
row. { unfold MnemonicAvx32.i_vextractf64x2, MnemonicAvx.i_vextractf64x2. row_sim. }
row. { unfold MnemonicAvx32.i_vextractf64x4, MnemonicAvx.i_vextractf64x4. row_sim. }
row. { unfold MnemonicAvx32.i_vextracti32x4, MnemonicAvx.i_vextracti32x4. row_sim. }
row. { unfold MnemonicAvx32.i_vextracti32x8, MnemonicAvx.i_vextracti32x8. row_sim. }
row. { unfold MnemonicAvx32.i_vextracti64x2, MnemonicAvx.i_vextracti64x2. row_sim. }
row. { unfold MnemonicAvx32.i_vextracti64x4, MnemonicAvx.i_vextracti64x4. row_sim. }
row. { unfold MnemonicAvx32.i_vfcmaddcph, MnemonicAvx.i_vfcmaddcph. row_sim. }
row. { unfold MnemonicAvx32.i_vfcmulcph, MnemonicAvx.i_vfcmulcph. row_sim. }
row. { unfold MnemonicAvx32.i_vfixupimmpd, MnemonicAvx.i_vfixupimmpd. row_sim. }
row. { unfold MnemonicAvx32.i_vfixupimmps, MnemonicAvx.i_vfixupimmps. row_sim. }
row. { unfold MnemonicAvx32.i_vfixupimmsd, MnemonicAvx.i_vfixupimmsd. row_sim. }
row. { unfold MnemonicAvx32.i_vfixupimmss, MnemonicAvx.i_vfixupimmss. row_sim. }
row. { unfold MnemonicAvx32.i_vfmadd132nepbf16, MnemonicAvx.i_vfmadd132nepbf16. row_sim. }
row. { unfold MnemonicAvx32.i_vfmadd132ph, MnemonicAvx.i_vfmadd132ph. row_sim. }
row. { unfold MnemonicAvx32.i_vfmadd132sh, MnemonicAvx.i_vfmadd132sh. row_sim. }
row. { unfold MnemonicAvx32.i_vfmadd213nepbf16, MnemonicAvx.i_vfmadd213nepbf16. row_sim. }
row. { unfold MnemonicAvx32.i_vfmadd213ph, MnemonicAvx.i_vfmadd213ph. row_sim. }
row. { unfold MnemonicAvx32.i_vfmadd213sh, MnemonicAvx.i_vfmadd213sh. row_sim. }
row. { unfold MnemonicAvx32.i_vfmadd231nepbf16, MnemonicAvx.i_vfmadd231nepbf16. row_sim. }
row. { unfold MnemonicAvx32.i_vfmadd231ph, MnemonicAvx.i_vfmadd231ph. row_sim. }
row. { unfold MnemonicAvx32.i_vfmadd231sh, MnemonicAvx.i_vfmadd231sh. row_sim. }
row. { unfold MnemonicAvx32.i_vfmaddcph, MnemonicAvx.i_vfmaddcph. row_sim. }
row. { unfold MnemonicAvx32.i_vfmaddsub132ph, MnemonicAvx.i_vfmaddsub132ph. row_sim. }
apply Forall_nil. Qed.
Definition sims65 : list b_entry :=
  [mkB "vfmaddsub213ph" (fun v => let (o, a, r, n, e, s) := v in MnemonicAvx32.i_vfmaddsub213ph (r 0) (r 1) (o 2))
     (fun v => let (o, a, r, n, e, s) := v in MnemonicAvx.i_vfmaddsub213ph (r 0) (r 1) (widen_op (o 2)));
   mkB "vfmaddsub231ph" (fun v => let (o, a, r, n, e, s) := v in MnemonicAvx32.i_vfmaddsub231ph (r 0) (r 1) (o 2))
     (fun v => let (o, a, r, n, e, s) := v in MnemonicAvx.i_vfmaddsub231ph (r 0) (r 1) (widen_op (o 2)));
   mkB "vfmsub132nepbf16" (fun v => let (o, a, r, n, e, s) := v in MnemonicAvx32.i_vfmsub132nepbf16 (r 0) (r 1) (o 2))
     (fun v => let (o, a, r, n, e, s) := v in MnemonicAvx.i_vfmsub132nepbf16 (r 0) (r 1) (widen_op (o 2)));
   mkB "vfmsub132ph" (fun v => let (o, a, r, n, e, s) := v in MnemonicAvx32.i_vfmsub132ph (r 0) (r 1) (o 2))
     (fun v => let (o, a, r, n, e, s) := v in MnemonicAvx.i_vfmsub132ph (r 0) (r 1) (widen_op (o 2)));
   mkB "vfmsub132sh" (fun v => let (o, a, r, n, e, s) := v in MnemonicAvx32.i_vfmsub132sh (r 0) (r 1) (o 2))
     (fun v => let (o, a, r, n, e, s) := v in MnemonicAvx.i_vfmsub132sh (r 0) (r 1) (widen_op (o 2)));
   mkB "vfmsub213nepbf16" (fun v => let (o, a, r, n, e, s) := v in MnemonicAvx32.i_vfmsub213nepbf16 (r 0) (r 1) (o 2))
     (fun v => let (o, a, r, n, e, s) := v in MnemonicAvx.i_vfmsub213nepbf16 (r 0) (r 1) (widen_op (o 2)));
   mkB "vfmsub213ph" (fun v => let (o, a, r, n, e, s) := v in MnemonicAvx32.i_vfmsub213ph (r 0) (r 1) (o 2))
     (fun v => let (o, a, r, n, e, s) := v in MnemonicAvx.i_vfmsub213ph (r 0) (r 1) (widen_op (o 2)));
   mkB "vfmsub213sh" (fun v => let (o, a, r, n, e, s) := v in MnemonicAvx32.i_vfmsub213sh (r 0) (r 1) (o 2))
     (fun v => let (o, a, r, n, e, s) := v in MnemonicAvx.i_vfmsub213sh (r 0) (r 1) (widen_op (o 2)));
   mkB "vfmsub231nepbf16" (fun v => let (o, a, r, n, e, s) := v in MnemonicAvx32.i_vfmsub231nepbf16 (r 0) (r 1) (o 2))
     (fun v => let (o, a, r, n, e, s) := v in MnemonicAvx.i_vfmsub231nepbf16 (r 0) (r 1) (widen_op (o 2)));
   mkB "vfmsub231ph" (fun v => let (o, a, r, n, e, s) := v in MnemonicAvx32.i_vfmsub231ph (r 0) (r 1) (o 2))
     (fun v => let (o, a, r, n, e, s) := v in MnemonicAvx.i_vfmsub231ph (r 0) (r 1) (widen_op (o 2)));
   mkB "vfmsub231sh" (fun v => let (o, a, r, n, e, s) := v in MnemonicAvx32.i_vfmsub231sh (r 0) (r 1) (o 2))
     (fun v => let (o, a, r, n, e, s) := v in MnemonicAvx.i_vfmsub231sh (r 0) (r 1) (widen_op (o 2)));
   mkB "vfmsubadd132ph" (fun v => let (o, a, r, n, e, s) := v in MnemonicAvx32.i_vfmsubadd132ph (r 0) (r 1) (o 2))
     (fun v => let (o, a, r, n, e, s) := v in MnemonicAvx.i_vfmsubadd132ph (r 0) (r 1) (widen_op (o 2)));
   mkB "vfmsubadd213ph" (fun v => let (o, a, r, n, e, s) := v in MnemonicAvx32.i_vfmsubadd213ph (r 0) (r 1) (o 2))
     (fun v => let (o, a, r, n, e, s) := v in MnemonicAvx.i_vfmsubadd213ph (r 0) (r 1) (widen_op (o 2)));
   mkB "vfmsubadd231ph" (fun v => let (o, a, r, n, e, s) := v in MnemonicAvx32.i_vfmsubadd231ph (r 0) (r 1) (o 2))
     (fun v => let (o, a, r, n, e, s) := v in MnemonicAvx.i_vfmsubadd231ph (r 0) (r 1) (widen_op (o 2)));
   mkB "vfmulcph" (fun v => let (o, a, r, n, e, s) := v in MnemonicAvx32.i_vfmulcph (r 0) (r 1) (o 2))
     (fun v => let (o, a, r, n, e, s) := v in MnemonicAvx.i_vfmulcph (r 0) (r 1) (widen_op (o 2)));
   mkB "vfnmadd132nepbf16" (fun v => let (o, a, r, n, e, s) := v in MnemonicAvx32.i_vfnmadd132nepbf16 (r 0) (r 1) (o 2))
     (fun v => let (o, a, r, n, e, s) := v in MnemonicAvx.i_vfnmadd132nepbf16 (r 0) (r 1) (widen_op (o 2)));
   mkB "vfnmadd132ph" (fun v => let (o, a, r, n, e, s) := v in MnemonicAvx32.i_vfnmadd132ph (r 0) (r 1) (o 2))
     (fun v => let (o, a, r, n, e, s) := v in MnemonicAvx.i_vfnmadd132ph (r 0) (r 1) (widen_op (o 2)));
   mkB "vfnmadd132sh" (fun v => let (o, a, r, n, e, s) := v in MnemonicAvx32.i_vfnmadd132sh (r 0) (r 1) (o 2))
     (fun v => let (o, a, r, n, e, s) := v in MnemonicAvx.i_vfnmadd132sh (r 0) (r 1) (widen_op (o 2)));
   mkB "vfnmadd213nepbf16" (fun v => let (o, a, r, n, e, s) := v in MnemonicAvx32.i_vfnmadd213nepbf16 (r 0) (r 1) (o 2))
     (fun v => let (o, a, r, n, e, s) := v in MnemonicAvx.i_vfnmadd213nepbf16 (r 0) (r 1) (widen_op (o 2)));
   mkB "vfnmadd213ph" (fun v => let (o, a, r, n, e, s) := v in MnemonicAvx32.i_vfnmadd213ph (r 0) (r 1) (o 2))
     (fun v => let (o, a, r, n, e, s) := v in MnemonicAvx.i_vfnmadd213ph (r 0) (r 1) (widen_op (o 2)));
   mkB "vfnmadd213sh" (fun v => let (o, a, r, n, e, s) := v in MnemonicAvx32.i_vfnmadd213sh (r 0) (r 1) (o 2))
     (fun v => let (o, a, r, n, e, s) := v in MnemonicAvx.i_vfnmadd213sh (r 0) (r 1) (widen_op (o 2)));
   mkB "vfnmadd231nepbf16" (fun v => let (o, a, r, n, e, s) := v in MnemonicAvx32.i_vfnmadd231nepbf16 (r 0) (r 1) (o 2))
     (fun v => let (o, a, r, n, e, s) := v in MnemonicAvx.i_vfnmadd231nepbf16 (r 0) (r 1) (widen_op (o 2)));
   mkB "vfnmadd231ph" (fun v => let (o, a, r, n, e, s) := v in MnemonicAvx32.i_vfnmadd231ph (r 0) (r 1) (o 2))
     (fun v => let (o, a, r, n, e, s) := v in MnemonicAvx.i_vfnmadd231ph (r 0) (r 1) (widen_op (o 2)));
   mkB "vfnmadd231sh" (fun v => let (o, a, r, n, e, s) := v in MnemonicAvx32.i_vfnmadd231sh (r 0) (r 1) (o 2))
     (fun v => let (o, a, r, n, e, s) := v in MnemonicAvx.i_vfnmadd231sh (r 0) (r 1) (widen_op (o 2)));
   mkB "vfnmsub132nepbf16" (fun v => let (o, a, r, n, e, s) := v in MnemonicAvx32.i_vfnmsub132nepbf16 (r 0) (r 1) (o 2))
     (fun v => let (o, a, r, n, e, s) := v in MnemonicAvx.i_vfnmsub132nepbf16 (r 0) (r 1) (widen_op (o 2)))].
Lemma sims65_ok : Forall same sims65.
Proof. unfold sims65.
row. { unfold MnemonicAvx32.i_vfmaddsub213ph, MnemonicAvx.i_vfmaddsub213ph. row_sim. }
row. { unfold MnemonicAvx32.i_vfmaddsub231ph, MnemonicAvx.i_vfmaddsub231ph. row_sim. }
row. { unfold MnemonicAvx32.i_vfmsub132nepbf16, MnemonicAvx.i_vfmsub132nepbf16. row_sim. }
row. { unfold MnemonicAvx32.i_vfmsub132ph, MnemonicAvx.i_vfmsub132ph. row_sim. }
row. { unfold MnemonicAvx32.i_vfmsub132sh, MnemonicAvx.i_vfmsub132sh. row_sim. }
row. { unfold MnemonicAvx32.i_vfmsub213nepbf16, MnemonicAvx.i_vfmsub213nepbf16. row_sim. }
row. { unfold MnemonicAvx32.i_vfmsub213ph, MnemonicAvx.i_vfmsub213ph. row_sim. }
row. { unfold MnemonicAvx32.i_vfmsub213sh, MnemonicAvx.i_vfmsub213sh. row_sim. }
row. { unfold MnemonicAvx32.i_vfmsub231nepbf16, MnemonicAvx.i_vfmsub231nepbf16. row_sim. }
row. { unfold MnemonicAvx32.i_vfmsub231ph, MnemonicAvx.i_vfmsub231ph. row_sim. }
row. { unfold MnemonicAvx32.i_vfmsub231sh, MnemonicAvx.i_vfmsub231sh. row_sim. }
row. { unfold MnemonicAvx32.i_vfmsubadd132ph, MnemonicAvx.i_vfmsubadd132ph. row_sim. }
row. { unfold MnemonicAvx32.i_vfmsubadd213ph, MnemonicAvx.i_vfmsubadd213ph. row_sim. }
row. { unfold MnemonicAvx32.i_vfmsubadd231ph, MnemonicAvx.i_vfmsubadd231ph. row_sim. }
row. { unfold MnemonicAvx32.i_vfmulcph, MnemonicAvx.i_vfmulcph. row_sim. }
row. { unfold MnemonicAvx32.i_vfnmadd132nepbf16, MnemonicAvx.i_vfnmadd132nepbf16. row_sim. }
row. { unfold MnemonicAvx32.i_vfnmadd132ph, MnemonicAvx.i_vfnmadd132ph. row_sim. }
row. { unfold MnemonicAvx32.i_vfnmadd132sh, MnemonicAvx.i_vfnmadd132sh. row_sim. }
row. { unfold MnemonicAvx32.i_vfnmadd213nepbf16, MnemonicAvx.i_vfnmadd213nepbf16. row_sim. }
row. { unfold MnemonicAvx32.i_vfnmadd213ph, MnemonicAvx.i_vfnmadd213ph. row_sim. }
row. { unfold MnemonicAvx32.i_vfnmadd213sh, MnemonicAvx.i_vfnmadd213sh. row_sim. }
row. { unfold MnemonicAvx32.i_vfnmadd231nepbf16, MnemonicAvx.i_vfnmadd231nepbf16. row_sim. }
row. { unfold MnemonicAvx32.i_vfnmadd231ph, MnemonicAvx.i_vfnmadd231ph. row_sim. }
row. { unfold MnemonicAvx32.i_vfnmadd231sh, MnemonicAvx.i_vfnmadd231sh. row_sim. }
row. { unfold MnemonicAvx32.i_vfnmsub132nepbf16, MnemonicAvx.i_vfnmsub132nepbf16. row_sim. }
apply Forall_nil. Qed.
Definition sims66 : list b_entry :=
  [mkB "vfnmsub132ph" (fun v => let (o, a, r, n, e, s) := v in MnemonicAvx32.i_vfnmsub132ph (r 0) (r 1) (o 2))
     (fun v => let (o, a, r, n, e, s) := v in MnemonicAvx.i_vfnmsub132ph (r 0) (r 1) (widen_op (o 2)));
   mkB "vfnmsub132sh" (fun v => let (o, a, r, n, e, s) := v in MnemonicAvx32.i_vfnmsub132sh (r 0) (r 1) (o 2))
     (fun v => let (o, a, r, n, e, s) := v in MnemonicAvx.i_vfnmsub132sh (r 0) (r 1) (widen_op (o 2)));
   mkB "vfnmsub213nepbf16" (fun v => let (o, a, r, n, e, s) := v in MnemonicAvx32.i_vfnmsub213nepbf16 (r 0) (r 1) (o 2))
     (fun v => let (o, a, r, n, e, s) := v in MnemonicAvx.i_vfnmsub213nepbf16 (r 0) (r 1) (widen_op (o 2)));
   mkB "vfnmsub213ph" (fun v => let (o, a, r, n, e, s) := v in MnemonicAvx32.i_vfnmsub213ph (r 0) (r 1) (o 2))
     (fun v => let (o, a, r, n, e, s) := v in MnemonicAvx.i_vfnmsub213ph (r 0) (r 1) (widen_op (o 2)));
   mkB "vfnmsub213sh" (fun v => let (o, a, r, n, e, s) := v in MnemonicAvx32.i_vfnmsub213sh (r 0) (r 1) (o 2))
     (fun v => let (o, a, r, n, e, s) := v in MnemonicAvx.i_vfnmsub213sh (r 0) (r 1) (widen_op (o 2)));
   mkB "vfnmsub231nepbf16" (fun v => let (o, a, r, n, e, s) := v in MnemonicAvx32.i_vfnmsub231nepbf16 (r 0) (r 1) (o 2))
     (fun v => let (o, a, r, n, e, s) := v in MnemonicAvx.i_vfnmsub231nepbf16 (r 0) (r 1) (widen_op (o 2)));
   mkB "vfnmsub231ph" (fun v => let (o, a, r, n, e, s) := v in MnemonicAvx32.i_vfnmsub231ph (r 0) (r 1) (o 2))
     (fun v => let (o, a, r, n, e, s) := v in MnemonicAvx.i_vfnmsub231ph (r 0) (r 1) (widen_op (o 2)));
   mkB "vfnmsub231sh" (fun v => let (o, a, r, n, e, s) := v in MnemonicAvx32.i_vfnmsub231sh (r 0) (r 1) (o 2))
     (fun v => let (o, a, r, n, e, s) := v in MnemonicAvx.i_vfnmsub231sh (r 0) (r 1) (widen_op (o 2)));
   mkB "vfpclasspd" (fun v => let (o, a, r, n, e, s) := v in MnemonicAvx32.i_vfpclasspd (r 0) (o 1) (n 2))
     (fun v => let (o, a, r, n, e, s) := v in MnemonicAvx.i_vfpclasspd (r 0) (widen_op (o 1)) (n 2));
   mkB "vfpclassph" (fun v => let (o, a, r, n, e, s) := v in MnemonicAvx32.i_vfpclassph (r 0) (o 1) (n 2))
     (fun v => let (o, a, r, n, e, s) := v in MnemonicAvx.i_vfpclassph (r 0) (widen_op (o 1)) (n 2));
   mkB "vfpclassps" (fun v => let (o, a, r, n, e, s) := v in MnemonicAvx32.i_vfpclassps (r 0) (o 1) (n 2))
     (fun v => let (o, a, r, n, e, s) := v in MnemonicAvx.i_vfpclassps (r 0) (widen_op (o 1)) (n 2));
   mkB "vfpclasssd" (fun v => let (o, a, r, n, e, s) := v in MnemonicAvx32.i_vfpclasssd (r 0) (o 1) (n 2))
     (fun v => let (o, a, r, n, e, s) := v in MnemonicAvx.i_vfpclasssd (r 0) (widen_op (o 1)) (n 2));
   mkB "vfpclasssh" (fun v => let (o, a, r, n, e, s) := v in MnemonicAvx32.i_vfpclasssh (r 0) (o 1) (n 2))
     (fun v => let (o, a, r, n, e, s) := v in MnemonicAvx.i_vfpclasssh (r 0) (widen_op (o 1)) (n 2));
   mkB "vfpclassss" (fun v => let (o, a, r, n, e, s) := v in MnemonicAvx32.i_vfpclassss (r 0) (o 1) (n 2))
     (fun v => let (o, a, r, n, e, s) := v in MnemonicAvx.i_vfpclassss (r 0) (widen_op (o 1)) (n 2));
   mkB "vgatherdpd_xa" (fun v => let (o, a, r, n, e, s) := v in MnemonicAvx32.i_vgatherdpd_xa (r 0) (a 1))
     (fun v => let (o, a, r, n, e, s) := v in MnemonicAvx.i_vgatherdpd_xa (r 0) (widen_addr (a 1)));
   mkB "vgatherdps_xa" (fun v => let (o, a, r, n, e, s) := v in MnemonicAvx32.i_vgatherdps_xa (r 0) (a 1))
     (fun v => let (o, a, r, n, e, s) := v in MnemonicAvx.i_vgatherdps_xa (r 0) (widen_addr (a 1)));
   mkB "vgatherpf0dpd" (fun v => let (o, a, r, n, e, s) := v in MnemonicAvx32.i_vgatherpf0dpd (a 0))
     (fun v => let (o, a, r, n, e, s) := v in MnemonicAvx.i_vgatherpf0dpd (widen_addr (a 0)));
   mkB "vgatherpf0dps" (fun v => let (o, a, r, n, e, s) := v in MnemonicAvx32.i_vgatherpf0dps (a 0))
     (fun v => let (o, a, r, n, e, s) := v in MnemonicAvx.i_vgatherpf0dps (widen_addr (a 0)));
   mkB "vgatherpf0qpd" (fun v => let (o, a, r, n, e, s) := v in MnemonicAvx32.i_vgatherpf0qpd (a 0))
     (fun v => let (o, a, r, n, e, s) := v in MnemonicAvx.i_vgatherpf0qpd (widen_addr (a 0)));
   mkB "vgatherpf0qps" (fun v => let (o, a, r, n, e, s) := v in MnemonicAvx32.i_vgatherpf0qps (a 0))
     (fun v => let (o, a, r, n, e, s) := v in MnemonicAvx.i_vgatherpf0qps (widen_addr (a 0)));
   mkB "vgatherpf1dpd" (fun v => let (o, a, r, n, e, s) := v in MnemonicAvx32.i_vgatherpf1dpd (a 0))
     (fun v => let (o, a, r, n, e, s) := v in MnemonicAvx.i_vgatherpf1dpd (widen_addr (a 0)));
   mkB "vgatherpf1dps" (fun v => let (o, a, r, n, e, s) := v in MnemonicAvx32.i_vgatherpf1dps (a 0))
     (fun v => let (o, a, r, n, e, s) := v in MnemonicAvx.i_vgatherpf1dps (widen_addr (a 0)));
   mkB "vgatherpf1qpd" (fun v => let (o, a, r, n, e, s) := v in MnemonicAvx32.i_vgatherpf1qpd (a 0))
     (fun v => let (o, a, r, n, e, s) := v in MnemonicAvx.i_vgatherpf1qpd (widen_addr (a 0)));
   mkB "vgatherpf1qps" (fun v => let (o, a, r, n, e, s) := v in MnemonicAvx32.i_vgatherpf1qps (a 0))
     (fun v => let (o, a, r, n, e, s) := v in MnemonicAvx.i_vgatherpf1qps (widen_addr (a 0)));
   mkB "vgatherqpd_xa" (fun v => let (o, a, r, n, e, s) := v in MnemonicAvx32.i_vgatherqpd_xa (r 0) (a 1))
     (fun v => let (o, a, r, n, e, s) := v in MnemonicAvx.i_vgatherqpd_xa (r 0) (widen_addr (a 1)))].
Lemma sims66_ok : Forall same sims66.
Proof. unfold sims66.
row. { unfold MnemonicAvx32.i_vfnmsub132ph, MnemonicAvx.i_vfnmsub132ph. row_sim. }
row. { unfold MnemonicAvx32.i_vfnmsub132sh, MnemonicAvx.i_vfnmsub132sh. row_sim. }
row. { unfold MnemonicAvx32.i_vfnmsub213nepbf16, MnemonicAvx.i_vfnmsub213nepbf16. row_sim. }
row. { unfold MnemonicAvx32.i_vfnmsub213ph, MnemonicAvx.i_vfnmsub213ph. row_sim. }
row. { unfold MnemonicAvx32.i_vfnmsub213sh, MnemonicAvx.i_vfnmsub213sh. row_sim. }
row. { unfold MnemonicAvx32.i_vfnmsub231nepbf16, MnemonicAvx.i_vfnmsub231nepbf16. row_sim. }
row. { unfold MnemonicAvx32.i_vfnmsub231ph, MnemonicAvx.i_vfnmsub231ph. row_sim. }
row. { unfold MnemonicAvx32.i_vfnmsub231sh, MnemonicAvx.i_vfnmsub231sh. row_sim. }
row. { unfold MnemonicAvx32.i_vfpclasspd, MnemonicAvx.i_vfpclasspd. row_sim. }
row. { unfold MnemonicAvx32.i_vfpclassph, MnemonicAvx.i_vfpclassph. row_sim. }
row. { unfold MnemonicAvx32.i_vfpclassps, MnemonicAvx.i_vfpclassps. row_sim. }
row. { unfold MnemonicAvx32.i_vfpclasssd, MnemonicAvx.i_vfpclasssd. row_sim. }
row. { unfold MnemonicAvx32.i_vfpclasssh, MnemonicAvx.i_vfpclasssh. row_sim. }
row. { unfold MnemonicAvx32.i_vfpclassss, MnemonicAvx.i_vfpclassss. row_sim. }
row. { unfold MnemonicAvx32.i_vgatherdpd_xa, MnemonicAvx.i_vgatherdpd_xa. row_sim. }
row. { unfold MnemonicAvx32.i_vgatherdps_xa, MnemonicAvx.i_vgatherdps_xa. row_sim. }
row. { unfold MnemonicAvx32.i_vgatherpf0dpd, MnemonicAvx.i_vgatherpf0dpd. row_sim. }
row. { unfold MnemonicAvx32.i_vgatherpf0dps, MnemonicAvx.i_vgatherpf0dps. row_sim. }
row. { unfold MnemonicAvx32.i_vgatherpf0qpd, MnemonicAvx.i_vgatherpf0qpd. row_sim. }
row. { unfold MnemonicAvx32.i_vgatherpf0qps, MnemonicAvx.i_vgatherpf0qps. row_sim. }
row. { unfold MnemonicAvx32.i_vgatherpf1dpd, MnemonicAvx.i_vgatherpf1dpd. row_sim. }
row. { unfold MnemonicAvx32.i_vgatherpf1dps, MnemonicAvx.i_vgatherpf1dps. row_sim. }
row. { unfold MnemonicAvx32.i_vgatherpf1qpd, MnemonicAvx.i_vgatherpf1qpd. row_sim. }
row. { unfold MnemonicAvx32.i_vgatherpf1qps, MnemonicAvx.i_vgatherpf1qps. row_sim. }
row. { unfold MnemonicAvx32.i_vgatherqpd_xa, MnemonicAvx.i_vgatherqpd_xa. row_sim. }
apply Forall_nil. Qed.
Definition sims67 : list b_entry :=
  [mkB "vgatherqps_xa" (fun v => let (o, a, r, n, e, s) := v in MnemonicAvx32.i_vgatherqps_xa (r 0) (a 1))
     (fun v => let (o, a, r, n, e, s) := v in MnemonicAvx.i_vgatherqps_xa (r 0) (widen_addr (a 1)));
   mkB "vgetexppbf16" (fun v => let (o, a, r, n, e, s) := v in MnemonicAvx32.i_vgetexppbf16 (r 0) (o 1))
     (fun v => let (o, a, r, n, e, s) := v in MnemonicAvx.i_vgetexppbf16 (r 0) (widen_op (o 1)));
   mkB "vgetexppd" (fun v => let (o, a, r, n, e, s) := v in MnemonicAvx32.i_vgetexppd (r 0) (o 1))
     (fun v => let (o, a, r, n, e, s) := v in MnemonicAvx.i_vgetexppd (r 0) (widen_op (o 1)));
   mkB "vgetexpph" (fun v => let (o, a, r, n, e, s) := v in MnemonicAvx32.i_vgetexpph (r 0) (o 1))
     (fun v => let (o, a, r, n, e, s) := v in MnemonicAvx.i_vgetexpph (r 0) (widen_op (o 1)));
   mkB "vgetexpps" (fun v => let (o, a, r, n, e, s) := v in MnemonicAvx32.i_vgetexpps (r 0) (o 1))
     (fun v => let (o, a, r, n, e, s) := v in MnemonicAvx.i_vgetexpps (r 0) (widen_op (o 1)));
   mkB "vgetexpsd" (fun v => let (o, a, r, n, e, s) := v in MnemonicAvx32.i_vgetexpsd (r 0) (r 1) (o 2))
     (fun v => let (o, a, r, n, e, s) := v in MnemonicAvx.i_vgetexpsd (r 0) (r 1) (widen_op (o 2)));
   mkB "vgetexpsh" (fun v => let (o, a, r, n, e, s) := v in MnemonicAvx32.i_vgetexpsh (r 0) (r 1) (o 2))
     (fun v => let (o, a, r, n, e, s) := v in MnemonicAvx.i_vgetexpsh (r 0) (r 1) (widen_op (o 2)));
   mkB "vgetexpss" (fun v => let (o, a, r, n, e, s) := v in MnemonicAvx32.i_vgetexpss (r 0) (r 1) (o 2))
     (fun v => let (o, a, r, n, e, s) := v in MnemonicAvx.i_vgetexpss (r 0) (r 1) (widen_op (o 2)));
   mkB "vgetmantpbf16" (fun v => let (o, a, r, n, e, s) := v in MnemonicAvx32.i_vgetmantpbf16 (r 0) (o 1) (n 2))
     (fun v => let (o, a, r, n, e, s) := v in MnemonicAvx.i_vgetmantpbf16 (r 0) (widen_op (o 1)) (n 2));
   mkB "vgetmantpd" (fun v => let (o, a, r, n, e, s) := v in MnemonicAvx32.i_vgetmantpd (r 0) (o 1) (n 2))
     (fun v => let (o, a, r, n, e, s) := v in MnemonicAvx.i_vgetmantpd (r 0) (widen_op (o 1)) (n 2));
   mkB "vgetmantph" (fun v => let (o, a, r, n, e, s) := v in MnemonicAvx32.i_vgetmantph (r 0) (o 1) (n 2))
     (fun v => let (o, a, r, n, e, s) := v in MnemonicAvx.i_vgetmantph (r 0) (widen_op (o 1)) (n 2));
   mkB "vgetmantps" (fun v => let (o, a, r, n, e, s) := v in MnemonicAvx32.i_vgetmantps (r 0) (o 1) (n 2))
     (fun v => let (o, a, r, n, e, s) := v in MnemonicAvx.i_vgetmantps (r 0) (widen_op (o 1)) (n 2));
   mkB "vgetmantsd" (fun v => let (o, a, r, n, e, s) := v in MnemonicAvx32.i_vgetmantsd (r 0) (r 1) (o 2) (n 3))
     (fun v => let (o, a, r, n, e, s) := v in MnemonicAvx.i_vgetmantsd (r 0) (r 1) (widen_op (o 2)) (n 3));
   mkB "vgetmantsh" (fun v => let (o, a, r, n, e, s) := v in MnemonicAvx32.i_vgetmantsh (r 0) (r 1) (o 2) (n 3))
     (fun v => let (o, a, r, n, e, s) := v in MnemonicAvx.i_vgetmantsh (r 0) (r 1) (widen_op (o 2)) (n 3));
   mkB "vgetmantss" (fun v => let (o, a, r, n, e, s) := v in MnemonicAvx32.i_vgetmantss (r 0) (r 1) (o 2) (n 3))
     (fun v => let (o, a, r, n, e, s) := v in MnemonicAvx.i_vgetmantss (r 0) (r 1) (widen_op (o 2)) (n 3));
   mkB "vinsertf32x4" (fun v => let (o, a, r, n, e, s) := v in MnemonicAvx32.i_vinsertf32x4 (r 0) (r 1) (o 2) (n 3))
     (fun v => let (o, a, r, n, e, s) := v in MnemonicAvx.i_vinsertf32x4 (r 0) (r 1) (widen_op (o 2)) (n 3));
   mkB "vinsertf32x8" (fun v => let (o, a, r, n, e, s) := v in MnemonicAvx32.i_vinsertf32x8 (r 0) (r 1) (o 2) (n 3))
     (fun v => let (o, a, r, n, e, s) := v in MnemonicAvx.i_vinsertf32x8 (r 0) (r 1) (widen_op (o 2)) (n 3));
   mkB "vinsertf64x2" (fun v => let (o, a, r, n, e, s) := v in MnemonicAvx32.i_vinsertf64x2 (r 0) (r 1) (o 2) (n 3))
     (fun v => let (o, a, r, n, e, s) := v in MnemonicAvx.i_vinsertf64x2 (r 0) (r 1) (widen_op (o 2)) (n 3));
   mkB "vinsertf64x4" (fun v => let (o, a, r, n, e, s) := v in MnemonicAvx32.i_vinsertf64x4 (r 0) (r 1) (o 2) (n 3))
     (fun v => let (o, a, r, n, e, s) := v in MnemonicAvx.i_vinsertf64x4 (r 0) (r 1) (widen_op (o 2)) (n 3));
   mkB "vinserti32x4" (fun v => let (o, a, r, n, e, s) := v in MnemonicAvx32.i_vinserti32x4 (r 0) (r 1) (o 2) (n 3))
     (fun v => let (o, a, r, n, e, s) := v in MnemonicAvx.i_vinserti32x4 (r 0) (r 1) (widen_op (o 2)) (n 3));
   mkB "vinserti32x8" (fun v => let (o, a, r, n, e, s) := v in MnemonicAvx32.i_vinserti32x8 (r 0) (r 1) (o 2) (n 3))
     (fun v => let (o, a, r, n, e, s) := v in MnemonicAvx.i_vinserti32x8 (r 0) (r 1) (widen_op (o 2)) (n 3));
   mkB "vinserti64x2" (fun v => let (o, a, r, n, e, s) := v in MnemonicAvx32.i_vinserti64x2 (r 0) (r 1) (o 2) (n 3))
     (fun v => let (o, a, r, n, e, s) := v in MnemonicAvx.i_vinserti64x2 (r 0) (r 1) (widen_op (o 2)) (n 3));
   mkB "vinserti64x4" (fun v => let (o, a, r, n, e, s) := v in MnemonicAvx32.i_vinserti64x4 (r 0) (r 1) (o 2) (n 3))
     (fun v => let (o, a, r, n, e, s) := v in MnemonicAvx.i_vinserti64x4 (r 0) (r 1) (widen_op (o 2)) (n 3));
   mkB "vmaxpbf16" (fun v => let (o, a, r, n, e, s) := v in MnemonicAvx32.i_vmaxpbf16 (r 0) (r 1) (o 2))
     (fun v => let (o, a, r, n, e, s) := v in MnemonicAvx.i_vmaxpbf16 (r 0) (r 1) (widen_op (o 2)));
   mkB "vmaxph" (fun v => let (o, a, r, n, e, s) := v in MnemonicAvx32.i_vmaxph (r 0) (o 1) (o 2))
     (fun v => let (o, a, r, n, e, s) := v in MnemonicAvx.i_vmaxph (r 0) (widen_op (o 1)) (widen_op (o 2)))].
Lemma sims67_ok : Forall same sims67.
Proof. unfold sims67.
row. { unfold MnemonicAvx32.i_vgatherqps_xa, MnemonicAvx.i_vgatherqps_xa. row_sim. }
row. { unfold MnemonicAvx32.i_vgetexppbf16, MnemonicAvx.i_vgetexppbf16. row_sim. }
row. { unfold MnemonicAvx32.i_vgetexppd, MnemonicAvx.i_vgetexppd. row_sim. }
row. { unfold MnemonicAvx32.i_vgetexpph, MnemonicAvx.i_vgetexpph. row_sim. }
row. { unfold MnemonicAvx32.i_vgetexpps, MnemonicAvx.i_vgetexpps. row_sim. }
row. { unfold MnemonicAvx32.i_vgetexpsd, MnemonicAvx.i_vgetexpsd. row_sim. }
row. { unfold MnemonicAvx32.i_vgetexpsh, MnemonicAvx.i_vgetexpsh. row_sim. }
row. { unfold MnemonicAvx32.i_vgetexpss, MnemonicAvx.i_vgetexpss. row_sim. }
row. { unfold MnemonicAvx32.i_vgetmantpbf16, MnemonicAvx.i_vgetmantpbf16. row_sim. }
row. { unfold MnemonicAvx32.i_vgetmantpd, MnemonicAvx.i_vgetmantpd. row_sim. }
row. { unfold MnemonicAvx32.i_vgetmantph, MnemonicAvx.i_vgetmantph. row_sim. }
row. { unfold MnemonicAvx32.i_vgetmantps, MnemonicAvx.i_vgetmantps. row_sim. }
row. { unfold MnemonicAvx32.i_vgetmantsd, MnemonicAvx.i_vgetmantsd. row_sim. }
row. { unfold MnemonicAvx32.i_vgetmantsh, MnemonicAvx.i_vgetmantsh. row_sim. }
row. { unfold MnemonicAvx32.i_vgetmantss, MnemonicAvx.i_vgetmantss. row_sim. }
row. { unfold MnemonicAvx32.i_vinsertf32x4, MnemonicAvx.i_vinsertf32x4. row_sim. }
row. { unfold MnemonicAvx32.i_vinsertf32x8, MnemonicAvx.i_vinsertf32x8. row_sim. }
row. { unfold MnemonicAvx32.i_vinsertf64x2, MnemonicAvx.i_vinsertf64x2. row_sim. }
row. { unfold MnemonicAvx32.i_vinsertf64x4, MnemonicAvx.i_vinsertf64x4. row_sim. }
row. { unfold MnemonicAvx32.i_vinserti32x4, MnemonicAvx.i_vinserti32x4. row_sim. }
row. { unfold MnemonicAvx32.i_vinserti32x8, MnemonicAvx.i_vinserti32x8. row_sim. }
row. { unfold MnemonicAvx32.i_vinserti64x2, MnemonicAvx.i_vinserti64x2. row_sim. }
row. { unfold MnemonicAvx32.i_vinserti64x4, MnemonicAvx.i_vinserti64x4. row_sim. }
row. { unfold MnemonicAvx32.i_vmaxpbf16, MnemonicAvx.i_vmaxpbf16. row_sim. }
row. { unfold MnemonicAvx32.i_vmaxph, MnemonicAvx.i_vmaxph. row_sim. }
apply Forall_nil. Qed.
Definition sims68 : list b_entry :=
  [mkB "vmaxsh" (fun v => let (o, a, r, n, e, s) := v in MnemonicAvx32.i_vmaxsh (r 0) (o 1) (o 2))
     (fun v => let (o, a, r, n, e, s) := v in MnemonicAvx.i_vmaxsh (r 0) (widen_op (o 1)) (widen_op (o 2)));
   mkB "vminmaxnepbf16" (fun v => let (o, a, r, n, e, s) := v in MnemonicAvx32.i_vminmaxnepbf16 (r 0) (r 1) (o 2) (n 3))
     (fun v => let (o, a, r, n, e, s) := v in MnemonicAvx.i_vminmaxnepbf16 (r 0) (r 1) (widen_op (o 2)) (n 3));
   mkB "vminmaxpd" (fun v => let (o, a, r, n, e, s) := v in MnemonicAvx32.i_vminmaxpd (r 0) (r 1) (o 2) (n 3))
     (fun v => let (o, a, r, n, e, s) := v in MnemonicAvx.i_vminmaxpd (r 0) (r 1) (widen_op (o 2)) (n 3));
   mkB "vminmaxph" (fun v => let (o, a, r, n, e, s) := v in MnemonicAvx32.i_vminmaxph (r 0) (r 1) (o 2) (n 3))
     (fun v => let (o, a, r, n, e, s) := v in MnemonicAvx.i_vminmaxph (r 0) (r 1) (widen_op (o 2)) (n 3));
   mkB "vminmaxps" (fun v => let (o, a, r, n, e, s) := v in MnemonicAvx32.i_vminmaxps (r 0) (r 1) (o 2) (n 3))
     (fun v => let (o, a, r, n, e, s) := v in MnemonicAvx.i_vminmaxps (r 0) (r 1) (widen_op (o 2)) (n 3));
   mkB "vminmaxsd" (fun v => let (o, a, r, n, e, s) := v in MnemonicAvx32.i_vminmaxsd (r 0) (r 1) (o 2) (n 3))
     (fun v => let (o, a, r, n, e, s) := v in MnemonicAvx.i_vminmaxsd (r 0) (r 1) (widen_op (o 2)) (n 3));
   mkB "vminmaxsh" (fun v => let (o, a, r, n, e, s) := v in MnemonicAvx32.i_vminmaxsh (r 0) (r 1) (o 2) (n 3))
     (fun v => let (o, a, r, n, e, s) := v in MnemonicAvx.i_vminmaxsh (r 0) (r 1) (widen_op (o 2)) (n 3));
   mkB "vminmaxss" (fun v => let (o, a, r, n, e, s) := v in MnemonicAvx32.i_vminmaxss (r 0) (r 1) (o 2) (n 3))
     (fun v => let (o, a, r, n, e, s) := v in MnemonicAvx.i_vminmaxss (r 0) (r 1) (widen_op (o 2)) (n 3));
   mkB "vminpbf16" (fun v => let (o, a, r, n, e, s) := v in MnemonicAvx32.i_vminpbf16 (r 0) (r 1) (o 2))
     (fun v => let (o, a, r, n, e, s) := v in MnemonicAvx.i_vminpbf16 (r 0) (r 1) (widen_op (o 2)));
   mkB "vminph" (fun v => let (o, a, r, n, e, s) := v in MnemonicAvx32.i_vminph (r 0) (o 1) (o 2))
     (fun v => let (o, a, r, n, e, s) := v in MnemonicAvx.i_vminph (r 0) (widen_op (o 1)) (widen_op (o 2)));
   mkB "vminsh" (fun v => let (o, a, r, n, e, s) := v in MnemonicAvx32.i_vminsh (r 0) (o 1) (o 2))
     (fun v => let (o, a, r, n, e, s) := v in MnemonicAvx.i_vminsh (r 0) (widen_op (o 1)) (widen_op (o 2)));
   mkB "vmovdqa32_ax" (fun v => let (o, a, r, n, e, s) := v in MnemonicAvx32.i_vmovdqa32_ax (a 0) (r 1))
     (fun v => let (o, a, r, n, e, s) := v in MnemonicAvx.i_vmovdqa32_ax (widen_addr (a 0)) (r 1));
   mkB "vmovdqa32_xo" (fun v => let (o, a, r, n, e, s) := v in MnemonicAvx32.i_vmovdqa32_xo (r 0) (o 1))
     (fun v => let (o, a, r, n, e, s) := v in MnemonicAvx.i_vmovdqa32_xo (r 0) (widen_op (o 1)));
   mkB "vmovdqa64_ax" (fun v => let (o, a, r, n, e, s) := v in MnemonicAvx32.i_vmovdqa64_ax (a 0) (r 1))
     (fun v => let (o, a, r, n, e, s) := v in MnemonicAvx.i_vmovdqa64_ax (widen_addr (a 0)) (r 1));
   mkB "vmovdqa64_xo" (fun v => let (o, a, r, n, e, s) := v in MnemonicAvx32.i_vmovdqa64_xo (r 0) (o 1))
     (fun v => let (o, a, r, n, e, s) := v in MnemonicAvx.i_vmovdqa64_xo (r 0) (widen_op (o 1)));
   mkB "vmovdqu16_ax" (fun v => let (o, a, r, n, e, s) := v in MnemonicAvx32.i_vmovdqu16_ax (a 0) (r 1))
     (fun v => let (o, a, r, n, e, s) := v in MnemonicAvx.i_vmovdqu16_ax (widen_addr (a 0)) (r 1));
   mkB "vmovdqu16_xo" (fun v => let (o, a, r, n, e, s) := v in MnemonicAvx32.i_vmovdqu16_xo (r 0) (o 1))
     (fun v => let (o, a, r, n, e, s) := v in MnemonicAvx.i_vmovdqu16_xo (r 0) (widen_op (o 1)));
   mkB "vmovdqu32_ax" (fun v => let (o, a, r, n, e, s) := v in MnemonicAvx32.i_vmovdqu32_ax (a 0) (r 1))
     (fun v => let (o, a, r, n, e, s) := v in MnemonicAvx.i_vmovdqu32_ax (widen_addr (a 0)) (r 1));
   mkB "vmovdqu32_xo" (fun v => let (o, a, r, n, e, s) := v in MnemonicAvx32.i_vmovdqu32_xo (r 0) (o 1))
     (fun v => let (o, a, r, n, e, s) := v in MnemonicAvx.i_vmovdqu32_xo (r 0) (widen_op (o 1)));
   mkB "vmovdqu64_ax" (fun v => let (o, a, r, n, e, s) := v in MnemonicAvx32.i_vmovdqu64_ax (a 0) (r 1))
     (fun v => let (o, a, r, n, e, s) := v in MnemonicAvx.i_vmovdqu64_ax (widen_addr (a 0)) (r 1));
   mkB "vmovdqu64_xo" (fun v => let (o, a, r, n, e, s) := v in MnemonicAvx32.i_vmovdqu64_xo (r 0) (o 1))
     (fun v => let (o, a, r, n, e, s) := v in MnemonicAvx.i_vmovdqu64_xo (r 0) (widen_op (o 1)));
   mkB "vmovdqu8_ax" (fun v => let (o, a, r, n, e, s) := v in MnemonicAvx32.i_vmovdqu8_ax (a 0) (r 1))
     (fun v => let (o, a, r, n, e, s) := v in MnemonicAvx.i_vmovdqu8_ax (widen_addr (a 0)) (r 1));
   mkB "vmovdqu8_xo" (fun v => let (o, a, r, n, e, s) := v in MnemonicAvx32.i_vmovdqu8_xo (r 0) (o 1))
     (fun v => let (o, a, r, n, e, s) := v in MnemonicAvx.i_vmovdqu8_xo (r 0) (widen_op (o 1)));
   mkB "vmovsh_ax" (fun v => let (o, a, r, n, e, s) := v in MnemonicAvx32.i_vmovsh_ax (a 0) (r 1))
     (fun v => let (o, a, r, n, e, s) := v in MnemonicAvx.i_vmovsh_ax (widen_addr (a 0)) (r 1));
   mkB "vmovsh_xa" (fun v => let (o, a, r, n, e, s) := v in MnemonicAvx32.i_vmovsh_xa (r 0) (a 1))
     (fun v => let (o, a, r, n, e, s) := v in MnemonicAvx.i_vmovsh_xa (r 0) (widen_addr (a 1)))].
Lemma sims68_ok : Forall same sims68.
Proof. unfold sims68.
row. { unfold MnemonicAvx32.i_vmaxsh, MnemonicAvx.i_vmaxsh. row_sim. }
row. { unfold MnemonicAvx32.i_vminmaxnepbf16, MnemonicAvx.i_vminmaxnepbf16. row_sim. }
row. { unfold MnemonicAvx32.i_vminmaxpd, MnemonicAvx.i_vminmaxpd. row_sim. }
row. { unfold MnemonicAvx32.i_vminmaxph, MnemonicAvx.i_vminmaxph. row_sim. }
row. { unfold MnemonicAvx32.i_vminmaxps, MnemonicAvx.i_vminmaxps. row_sim. }
row. { unfold MnemonicAvx32.i_vminmaxsd, MnemonicAvx.i_vminmaxsd. row_sim. }
row. { unfold MnemonicAvx32.i_vminmaxsh, MnemonicAvx.i_vminmaxsh. row_sim. }
row. { unfold MnemonicAvx32.i_vminmaxss, MnemonicAvx.i_vminmaxss. row_sim. }
row. { unfold MnemonicAvx32.i_vminpbf16, MnemonicAvx.i_vminpbf16. row_sim. }
row. { unfold MnemonicAvx32.i_vminph, MnemonicAvx.i_vminph. row_sim. }
row. { unfold MnemonicAvx32.i_vminsh, MnemonicAvx.i_vminsh. row_sim. }
row. { unfold MnemonicAvx32.i_vmovdqa32_ax, MnemonicAvx.i_vmovdqa32_ax. row_sim. }
row. { unfold MnemonicAvx32.i_vmovdqa32_xo, MnemonicAvx.i_vmovdqa32_xo. row_sim. }
row. { unfold MnemonicAvx32.i_vmovdqa64_ax, MnemonicAvx.i_vmovdqa64_ax. row_sim. }
row. { unfold MnemonicAvx32.i_vmovdqa64_xo, MnemonicAvx.i_vmovdqa64_xo. row_sim. }
row. { unfold MnemonicAvx32.i_vmovdqu16_ax, MnemonicAvx.i_vmovdqu16_ax. row_sim. }
row. { unfold MnemonicAvx32.i_vmovdqu16_xo, MnemonicAvx.i_vmovdqu16_xo. row_sim. }
row. { unfold MnemonicAvx32.i_vmovdqu32_ax, MnemonicAvx.i_vmovdqu32_ax. row_sim. }
row. { unfold MnemonicAvx32.i_vmovdqu32_xo, MnemonicAvx.i_vmovdqu32_xo. row_sim. }
row. { unfold MnemonicAvx32.i_vmovdqu64_ax, MnemonicAvx.i_vmovdqu64_ax. row_sim. }
row. { unfold MnemonicAvx32.i_vmovdqu64_xo, MnemonicAvx.i_vmovdqu64_xo. row_sim. }
row. { unfold MnemonicAvx32.i_vmovdqu8_ax, MnemonicAvx.i_vmovdqu8_ax. row_sim. }
row. { unfold MnemonicAvx32.i_vmovdqu8_xo, MnemonicAvx.i_vmovdqu8_xo. row_sim. }
row. { unfold MnemonicAvx32.i_vmovsh_ax, MnemonicAvx.i_vmovsh_ax. row_sim. }
row. { unfold MnemonicAvx32.i_vmovsh_xa, MnemonicAvx.i_vmovsh_xa. row_sim. }
apply Forall_nil. Qed.
Definition sims69 : list b_entry :=
  [mkB "vmovsh_xxx" (fun v => let (o, a, r, n, e, s) := v in MnemonicAvx32.i_vmovsh_xxx (r 0) (r 1) (r 2))
     (fun v => let (o, a, r, n, e, s) := v in MnemonicAvx.i_vmovsh_xxx (r 0) (r 1) (r 2));
   mkB "vmulnepbf16" (fun v => let (o, a, r, n, e, s) := v in MnemonicAvx32.i_vmulnepbf16 (r 0) (r 1) (o 2))
     (fun v => let (o, a, r, n, e, s) := v in MnemonicAvx.i_vmulnepbf16 (r 0) (r 1) (widen_op (o 2)));
   mkB "vmulph" (fun v => let (o, a, r, n, e, s) := v in MnemonicAvx32.i_vmulph (r 0) (o 1) (o 2))
     (fun v => let (o, a, r, n, e, s) := v in MnemonicAvx.i_vmulph (r 0) (widen_op (o 1)) (widen_op (o 2)));
   mkB "vmulsh" (fun v => let (o, a, r, n, e, s) := v in MnemonicAvx32.i_vmulsh (r 0) (o 1) (o 2))
     (fun v => let (o, a, r, n, e, s) := v in MnemonicAvx.i_vmulsh (r 0) (widen_op (o 1)) (widen_op (o 2)));
   mkB "vp2intersectd" (fun v => let (o, a, r, n, e, s) := v in MnemonicAvx32.i_vp2intersectd (r 0) (r 1) (o 2))
     (fun v => let (o, a, r, n, e, s) := v in MnemonicAvx.i_vp2intersectd (r 0) (r 1) (widen_op (o 2)));
   mkB "vp2intersectq" (fun v => let (o, a, r, n, e, s) := v in MnemonicAvx32.i_vp2intersectq (r 0) (r 1) (o 2))
     (fun v => let (o, a, r, n, e, s) := v in MnemonicAvx.i_vp2intersectq (r 0) (r 1) (widen_op (o 2)));
   mkB "vp4dpwssd" (fun v => let (o, a, r, n, e, s) := v in MnemonicAvx32.i_vp4dpwssd (r 0) (r 1) (a 2))
     (fun v => let (o, a, r, n, e, s) := v in MnemonicAvx.i_vp4dpwssd (r 0) (r 1) (widen_addr (a 2)));
   mkB "vp4dpwssds" (fun v => let (o, a, r, n, e, s) := v in MnemonicAvx32.i_vp4dpwssds (r 0) (r 1) (a 2))
     (fun v => let (o, a, r, n, e, s) := v in MnemonicAvx.i_vp4dpwssds (r 0) (r 1) (widen_addr (a 2)));
   mkB "vpabsq" (fun v => let (o, a, r, n, e, s) := v in MnemonicAvx32.i_vpabsq (r 0) (o 1))
     (fun v => let (o, a, r, n, e, s) := v in MnemonicAvx.i_vpabsq (r 0) (widen_op (o 1)));
   mkB "vpandd" (fun v => let (o, a, r, n, e, s) := v in MnemonicAvx32.i_vpandd (r 0) (r 1) (o 2))
     (fun v => let (o, a, r, n, e, s) := v in MnemonicAvx.i_vpandd (r 0) (r 1) (widen_op (o 2)));
   mkB "vpandnd" (fun v => let (o, a, r, n, e, s) := v in MnemonicAvx32.i_vpandnd (r 0) (r 1) (o 2))
     (fun v => let (o, a, r, n, e, s) := v in MnemonicAvx.i_vpandnd (r 0) (r 1) (widen_op (o 2)));
   mkB "vpandnq" (fun v => let (o, a, r, n, e, s) := v in MnemonicAvx32.i_vpandnq (r 0) (r 1) (o 2))
     (fun v => let (o, a, r, n, e, s) := v in MnemonicAvx.i_vpandnq (r 0) (r 1) (widen_op (o 2)));
   mkB "vpandq" (fun v => let (o, a, r, n, e, s) := v in MnemonicAvx32.i_vpandq (r 0) (r 1) (o 2))
     (fun v => let (o, a, r, n, e, s) := v in MnemonicAvx.i_vpandq (r 0) (r 1) (widen_op (o 2)));
   mkB "vpblendmb" (fun v => let (o, a, r, n, e, s) := v in MnemonicAvx32.i_vpblendmb (r 0) (r 1) (o 2))
     (fun v => let (o, a, r, n, e, s) := v in MnemonicAvx.i_vpblendmb (r 0) (r 1) (widen_op (o 2)));
   mkB "vpblendmd" (fun v => let (o, a, r, n, e, s) := v in MnemonicAvx32.i_vpblendmd (r 0) (r 1) (o 2))
     (fun v => let (o, a, r, n, e, s) := v in MnemonicAvx.i_vpblendmd (r 0) (r 1) (widen_op (o 2)));
   mkB "vpblendmq" (fun v => let (o, a, r, n, e, s) := v in MnemonicAvx32.i_vpblendmq (r 0) (r 1) (o 2))
     (fun v => let (o, a, r, n, e, s) := v in MnemonicAvx.i_vpblendmq (r 0) (r 1) (widen_op (o 2)));
   mkB "vpblendmw" (fun v => let (o, a, r, n, e, s) := v in MnemonicAvx32.i_vpblendmw (r 0) (r 1) (o 2))
     (fun v => let (o, a, r, n, e, s) := v in MnemonicAvx.i_vpblendmw (r 0) (r 1) (widen_op (o 2)));
   mkB "vpbroadcastb_xb" (fun v => let (o, a, r, n, e, s) := v in MnemonicAvx32.i_vpbroadcastb_xb (r 0) (r 1))
     (fun v => let (o, a, r, n, e, s) := v in MnemonicAvx.i_vpbroadcastb_xb (r 0) (r 1));
   mkB "vpbroadcastd_xd" (fun v => let (o, a, r, n, e, s) := v in MnemonicAvx32.i_vpbroadcastd_xd (r 0) (r 1))
     (fun v => let (o, a, r, n, e, s) := v in MnemonicAvx.i_vpbroadcastd_xd (r 0) (r 1));
   mkB "vpbroadcastmb2q" (fun v => let (o, a, r, n, e, s) := v in MnemonicAvx32.i_vpbroadcastmb2q (r 0) (r 1))
     (fun v => let (o, a, r, n, e, s) := v in MnemonicAvx.i_vpbroadcastmb2q (r 0) (r 1));
   mkB "vpbroadcastmw2d" (fun v => let (o, a, r, n, e, s) := v in MnemonicAvx32.i_vpbroadcastmw2d (r 0) (r 1))
     (fun v => let (o, a, r, n, e, s) := v in MnemonicAvx.i_vpbroadcastmw2d (r 0) (r 1));
   mkB "vpbroadcastw_xw" (fun v => let (o, a, r, n, e, s) := v in MnemonicAvx32.i_vpbroadcastw_xw (r 0) (r 1))
     (fun v => let (o, a, r, n, e, s) := v in MnemonicAvx.i_vpbroadcastw_xw (r 0) (r 1));
   mkB "vpcmpb" (fun v => let (o, a, r, n, e, s) := v in MnemonicAvx32.i_vpcmpb (r 0) (r 1) (o 2) (n 3))
     (fun v => let (o, a, r, n, e, s) := v in MnemonicAvx.i_vpcmpb (r 0) (r 1) (widen_op (o 2)) (n 3));
   mkB "vpcmpd" (fun v => let (o, a, r, n, e, s) := v in MnemonicAvx32.i_vpcmpd (r 0) (r 1) (o 2) (n 3))
     (fun v => let (o, a, r, n, e, s) := v in MnemonicAvx.i_vpcmpd (r 0) (r 1) (widen_op (o 2)) (n 3));
   mkB "vpcmpeqb_kxo" (fun v => let (o, a, r, n, e, s) := v in MnemonicAvx32.i_vpcmpeqb_kxo (r 0) (r 1) (o 2))
     (fun v => let (o, a, r, n, e, s) := v in MnemonicAvx.i_vpcmpeqb_kxo (r 0) (r 1) (widen_op (o 2)))].
Lemma sims69_ok : Forall same sims69.
Proof. unfold sims69.
row. { unfold MnemonicAvx32.i_vmovsh_xxx, MnemonicAvx.i_vmovsh_xxx. row_sim. }
row. { unfold MnemonicAvx32.i_vmulnepbf16, MnemonicAvx.i_vmulnepbf16. row_sim. }
row. { unfold MnemonicAvx32.i_vmulph, MnemonicAvx.i_vmulph. row_sim. }
row. { unfold MnemonicAvx32.i_vmulsh, MnemonicAvx.i_vmulsh. row_sim. }
row. { unfold MnemonicAvx32.i_vp2intersectd, MnemonicAvx.i_vp2intersectd. row_sim. }
row. { unfold MnemonicAvx32.i_vp2intersectq, MnemonicAvx.i_vp2intersectq. row_sim. }
row. { unfold MnemonicAvx32.i_vp4dpwssd, MnemonicAvx.i_vp4dpwssd. row_sim. }
row. { unfold MnemonicAvx32.i_vp4dpwssds, MnemonicAvx.i_vp4dpwssds. row_sim. }
row. { unfold MnemonicAvx32.i_vpabsq, MnemonicAvx.i_vpabsq. row_sim. }
row. { unfold MnemonicAvx32.i_vpandd, MnemonicAvx.i_vpandd. row_sim. }
row. { unfold MnemonicAvx32.i_vpandnd, MnemonicAvx.i_vpandnd. row_sim. }
row. { unfold MnemonicAvx32.i_vpandnq, MnemonicAvx.i_vpandnq. row_sim. }
row. { unfold MnemonicAvx32.i_vpandq, MnemonicAvx.i_vpandq. row_sim. }
row. { unfold MnemonicAvx32.i_vpblendmb, MnemonicAvx.i_vpblendmb. row_sim. }
row. { unfold MnemonicAvx32.i_vpblendmd, MnemonicAvx.i_vpblendmd. row_sim. }
row. { unfold MnemonicAvx32.i_vpblendmq, MnemonicAvx.i_vpblendmq. row_sim. }
row. { unfold MnemonicAvx32.i_vpblendmw, MnemonicAvx.i_vpblendmw. row_sim. }
row. { unfold MnemonicAvx32.i_vpbroadcastb_xb, MnemonicAvx.i_vpbroadcastb_xb. row_sim. }
row. { unfold MnemonicAvx32.i_vpbroadcastd_xd, MnemonicAvx.i_vpbroadcastd_xd. row_sim. }
row. { unfold MnemonicAvx32.i_vpbroadcastmb2q, MnemonicAvx.i_vpbroadcastmb2q. row_sim. }
row. { unfold MnemonicAvx32.i_vpbroadcastmw2d, MnemonicAvx.i_vpbroadcastmw2d. row_sim. }
row. { unfold MnemonicAvx32.i_vpbroadcastw_xw, MnemonicAvx.i_vpbroadcastw_xw. row_sim. }
row. { unfold MnemonicAvx32.i_vpcmpb, MnemonicAvx.i_vpcmpb. row_sim. }
row. { unfold MnemonicAvx32.i_vpcmpd, MnemonicAvx.i_vpcmpd. row_sim. }
row. { unfold MnemonicAvx32.i_vpcmpeqb_kxo, MnemonicAvx.i_vpcmpeqb_kxo. row_sim. }
apply Forall_nil. Qed.
Definition sims70 : list b_entry :=
  [mkB "vpcmpeqd_kxo" (fun v => let (o, a, r, n, e, s) := v in MnemonicAvx32.i_vpcmpeqd_kxo (r 0) (r 1) (o 2))
     (fun v => let (o, a, r, n, e, s) := v in MnemonicAvx.i_vpcmpeqd_kxo (r 0) (r 1) (widen_op (o 2)));
   mkB "vpcmpeqq_kxo" (fun v => let (o, a, r, n, e, s) := v in MnemonicAvx32.i_vpcmpeqq_kxo (r 0) (r 1) (o 2))
     (fun v => let (o, a, r, n, e, s) := v in MnemonicAvx.i_vpcmpeqq_kxo (r 0) (r 1) (widen_op (o 2)));
   mkB "vpcmpeqw_kxo" (fun v => let (o, a, r, n, e, s) := v in MnemonicAvx32.i_vpcmpeqw_kxo (r 0) (r 1) (o 2))
     (fun v => let (o, a, r, n, e, s) := v in MnemonicAvx.i_vpcmpeqw_kxo (r 0) (r 1) (widen_op (o 2)));
   mkB "vpcmpgtb_kxo" (fun v => let (o, a, r, n, e, s) := v in MnemonicAvx32.i_vpcmpgtb_kxo (r 0) (r 1) (o 2))
     (fun v => let (o, a, r, n, e, s) := v in MnemonicAvx.i_vpcmpgtb_kxo (r 0) (r 1) (widen_op (o 2)));
   mkB "vpcmpgtd_kxo" (fun v => let (o, a, r, n, e, s) := v in MnemonicAvx32.i_vpcmpgtd_kxo (r 0) (r 1) (o 2))
     (fun v => let (o, a, r, n, e, s) := v in MnemonicAvx.i_vpcmpgtd_kxo (r 0) (r 1) (widen_op (o 2)));
   mkB "vpcmpgtq_kxo" (fun v => let (o, a, r, n, e, s) := v in MnemonicAvx32.i_vpcmpgtq_kxo (r 0) (r 1) (o 2))
     (fun v => let (o, a, r, n, e, s) := v in MnemonicAvx.i_vpcmpgtq_kxo (r 0) (r 1) (widen_op (o 2)));
   mkB "vpcmpgtw_kxo" (fun v => let (o, a, r, n, e, s) := v in MnemonicAvx32.i_vpcmpgtw_kxo (r 0) (r 1) (o 2))
     (fun v => let (o, a, r, n, e, s) := v in MnemonicAvx.i_vpcmpgtw_kxo (r 0) (r 1) (widen_op (o 2)));
   mkB "vpcmpq" (fun v => let (o, a, r, n, e, s) := v in MnemonicAvx32.i_vpcmpq (r 0) (r 1) (o 2) (n 3))
     (fun v => let (o, a, r, n, e, s) := v in MnemonicAvx.i_vpcmpq (r 0) (r 1) (widen_op (o 2)) (n 3));
   mkB "vpcmpub" (fun v => let (o, a, r, n, e, s) := v in MnemonicAvx32.i_vpcmpub (r 0) (r 1) (o 2) (n 3))
     (fun v => let (o, a, r, n, e, s) := v in MnemonicAvx.i_vpcmpub (r 0) (r 1) (widen_op (o 2)) (n 3));
   mkB "vpcmpud" (fun v => let (o, a, r, n, e, s) := v in MnemonicAvx32.i_vpcmpud (r 0) (r 1) (o 2) (n 3))
     (fun v => let (o, a, r, n, e, s) := v in MnemonicAvx.i_vpcmpud (r 0) (r 1) (widen_op (o 2)) (n 3));
   mkB "vpcmpuq" (fun v => let (o, a, r, n, e, s) := v in MnemonicAvx32.i_vpcmpuq (r 0) (r 1) (o 2) (n 3))
     (fun v => let (o, a, r, n, e, s) := v in MnemonicAvx.i_vpcmpuq (r 0) (r 1) (widen_op (o 2)) (n 3));
   mkB "vpcmpuw" (fun v => let (o, a, r, n, e, s) := v in MnemonicAvx32.i_vpcmpuw (r 0) (r 1) (o 2) (n 3))
     (fun v => let (o, a, r, n, e, s) := v in MnemonicAvx.i_vpcmpuw (r 0) (r 1) (widen_op (o 2)) (n 3));
   mkB "vpcmpw" (fun v => let (o, a, r, n, e, s) := v in MnemonicAvx32.i_vpcmpw (r 0) (r 1) (o 2) (n 3))
     (fun v => let (o, a, r, n, e, s) := v in MnemonicAvx.i_vpcmpw (r 0) (r 1) (widen_op (o 2)) (n 3));
   mkB "vpcompressb" (fun v => let (o, a, r, n, e, s) := v in MnemonicAvx32.i_vpcompressb (o 0) (r 1))
     (fun v => let (o, a, r, n, e, s) := v in MnemonicAvx.i_vpcompressb (widen_op (o 0)) (r 1));
   mkB "vpcompressd" (fun v => let (o, a, r, n, e, s) := v in MnemonicAvx32.i_vpcompressd (o 0) (r 1))
     (fun v => let (o, a, r, n, e, s) := v in MnemonicAvx.i_vpcompressd (widen_op (o 0)) (r 1));
   mkB "vpcompressq" (fun v => let (o, a, r, n, e, s) := v in MnemonicAvx32.i_vpcompressq (o 0) (r 1))
     (fun v => let (o, a, r, n, e, s) := v in MnemonicAvx.i_vpcompressq (widen_op (o 0)) (r 1));
   mkB "vpcompressw" (fun v => let (o, a, r, n, e, s) := v in MnemonicAvx32.i_vpcompressw (o 0) (r 1))
     (fun v => let (o, a, r, n, e, s) := v in MnemonicAvx.i_vpcompressw (widen_op (o 0)) (r 1));
   mkB "vpconflictd" (fun v => let (o, a, r, n, e, s) := v in MnemonicAvx32.i_vpconflictd (r 0) (o 1))
     (fun v => let (o, a, r, n, e, s) := v in MnemonicAvx.i_vpconflictd (r 0) (widen_op (o 1)));
   mkB "vpconflictq" (fun v => let (o, a, r, n, e, s) := v in MnemonicAvx32.i_vpconflictq (r 0) (o 1))
     (fun v => let (o, a, r, n, e, s) := v in MnemonicAvx.i_vpconflictq (r 0) (widen_op (o 1)));
   mkB "vpdpbssd" (fun v => let (o, a, r, n, e, s) := v in MnemonicAvx32.i_vpdpbssd (r 0) (r 1) (o 2) e)
     (fun v => let (o, a, r, n, e, s) := v in MnemonicAvx.i_vpdpbssd (r 0) (r 1) (widen_op (o 2)) e);
   mkB "vpdpbssds" (fun v => let (o, a, r, n, e, s) := v in MnemonicAvx32.i_vpdpbssds (r 0) (r 1) (o 2) e)
     (fun v => let (o, a, r, n, e, s) := v in MnemonicAvx.i_vpdpbssds (r 0) (r 1) (widen_op (o 2)) e);
   mkB "vpdpbsud" (fun v => let (o, a, r, n, e, s) := v in MnemonicAvx32.i_vpdpbsud (r 0) (r 1) (o 2) e)
     (fun v => let (o, a, r, n, e, s) := v in MnemonicAvx.i_vpdpbsud (r 0) (r 1) (widen_op (o 2)) e);
   mkB "vpdpbsuds" (fun v => let (o, a, r, n, e, s) := v in MnemonicAvx32.i_vpdpbsuds (r 0) (r 1) (o 2) e)
     (fun v => let (o, a, r, n, e, s) := v in MnemonicAvx.i_vpdpbsuds (r 0) (r 1) (widen_op (o 2)) e);
   mkB "vpdpbuud" (fun v => let (o, a, r, n, e, s) := v in MnemonicAvx32.i_vpdpbuud (r 0) (r 1) (o 2) e)
     (fun v => let (o, a, r, n, e, s) := v in MnemonicAvx.i_vpdpbuud (r 0) (r 1) (widen_op (o 2)) e);
   mkB "vpdpbuuds" (fun v => let (o, a, r, n, e, s) := v in MnemonicAvx32.i_vpdpbuuds (r 0) (r 1) (o 2) e)
     (fun v => let (o, a, r, n, e, s) := v in MnemonicAvx.i_vpdpbuuds (r 0) (r 1) (widen_op (o 2)) e)].
Lemma sims70_ok : Forall same sims70.
Proof. unfold sims70.
row. { unfold MnemonicAvx32.i_vpcmpeqd_kxo, MnemonicAvx.i_vpcmpeqd_kxo. row_sim. }
row. { unfold MnemonicAvx32.i_vpcmpeqq_kxo, MnemonicAvx.i_vpcmpeqq_kxo. row_sim. }
row. { unfold MnemonicAvx32.i_vpcmpeqw_kxo, MnemonicAvx.i_vpcmpeqw_kxo. row_sim. }
row. { unfold MnemonicAvx32.i_vpcmpgtb_kxo, MnemonicAvx.i_vpcmpgtb_kxo. row_sim. }
row. { unfold MnemonicAvx32.i_vpcmpgtd_kxo, MnemonicAvx.i_vpcmpgtd_kxo. row_sim. }
row. { unfold MnemonicAvx32.i_vpcmpgtq_kxo, MnemonicAvx.i_vpcmpgtq_kxo. row_sim. }
row. { unfold MnemonicAvx32.i_vpcmpgtw_kxo, MnemonicAvx.i_vpcmpgtw_kxo. row_sim. }
row. { unfold MnemonicAvx32.i_vpcmpq, MnemonicAvx.i_vpcmpq. row_sim. }
row. { unfold MnemonicAvx32.i_vpcmpub, MnemonicAvx.i_vpcmpub. row_sim. }
row. { unfold MnemonicAvx32.i_vpcmpud, MnemonicAvx.i_vpcmpud. row_sim. }
row. { unfold MnemonicAvx32.i_vpcmpuq, MnemonicAvx.i_vpcmpuq. row_sim. }
row. { unfold MnemonicAvx32.i_vpcmpuw, MnemonicAvx.i_vpcmpuw. row_sim. }
row. { unfold MnemonicAvx32.i_vpcmpw, MnemonicAvx.i_vpcmpw. row_sim. }
row. { unfold MnemonicAvx32.i_vpcompressb, MnemonicAvx.i_vpcompressb. row_sim. }
row. { unfold MnemonicAvx32.i_vpcompressd, MnemonicAvx.i_vpcompressd. row_sim. }
row. { unfold MnemonicAvx32.i_vpcompressq, MnemonicAvx.i_vpcompressq. row_sim. }
row. { unfold MnemonicAvx32.i_vpcompressw, MnemonicAvx.i_vpcompressw. row_sim. }
row. { unfold MnemonicAvx32.i_vpconflictd, MnemonicAvx.i_vpconflictd. row_sim. }
row. { unfold MnemonicAvx32.i_vpconflictq, MnemonicAvx.i_vpconflictq. row_sim. }
row. { unfold MnemonicAvx32.i_vpdpbssd, MnemonicAvx.i_vpdpbssd. row_sim. }
row. { unfold MnemonicAvx32.i_vpdpbssds, MnemonicAvx.i_vpdpbssds. row_sim. }
row. { unfold MnemonicAvx32.i_vpdpbsud, MnemonicAvx.i_vpdpbsud. row_sim. }
row. { unfold MnemonicAvx32.i_vpdpbsuds, MnemonicAvx.i_vpdpbsuds. row_sim. }
row. { unfold MnemonicAvx32.i_vpdpbuud, MnemonicAvx.i_vpdpbuud. row_sim. }
row. { unfold MnemonicAvx32.i_vpdpbuuds, MnemonicAvx.i_vpdpbuuds. row_sim. }
apply Forall_nil. Qed.
Definition sims71 : list b_entry :=
  [mkB "vpdpwsud" (fun v => let (o, a, r, n, e, s) := v in MnemonicAvx32.i_vpdpwsud (r 0) (r 1) (o 2) e)
     (fun v => let (o, a, r, n, e, s) := v in MnemonicAvx.i_vpdpwsud (r 0) (r 1) (widen_op (o 2)) e);
   mkB "vpdpwsuds" (fun v => let (o, a, r, n, e, s) := v in MnemonicAvx32.i_vpdpwsuds (r 0) (r 1) (o 2) e)
     (fun v => let (o, a, r, n, e, s) := v in MnemonicAvx.i_vpdpwsuds (r 0) (r 1) (widen_op (o 2)) e);
   mkB "vpdpwusd" (fun v => let (o, a, r, n, e, s) := v in MnemonicAvx32.i_vpdpwusd (r 0) (r 1) (o 2) e)
     (fun v => let (o, a, r, n, e, s) := v in MnemonicAvx.i_vpdpwusd (r 0) (r 1) (widen_op (o 2)) e);
   mkB "vpdpwusds" (fun v => let (o, a, r, n, e, s) := v in MnemonicAvx32.i_vpdpwusds (r 0) (r 1) (o 2) e)
     (fun v => let (o, a, r, n, e, s) := v in MnemonicAvx.i_vpdpwusds (r 0) (r 1) (widen_op (o 2)) e);
   mkB "vpdpwuud" (fun v => let (o, a, r, n, e, s) := v in MnemonicAvx32.i_vpdpwuud (r 0) (r 1) (o 2) e)
     (fun v => let (o, a, r, n, e, s) := v in MnemonicAvx.i_vpdpwuud (r 0) (r 1) (widen_op (o 2)) e);
   mkB "vpdpwuuds" (fun v => let (o, a, r, n, e, s) := v in MnemonicAvx32.i_vpdpwuuds (r 0) (r 1) (o 2) e)
     (fun v => let (o, a, r, n, e, s) := v in MnemonicAvx.i_vpdpwuuds (r 0) (r 1) (widen_op (o 2)) e);
   mkB "vpermb" (fun v => let (o, a, r, n, e, s) := v in MnemonicAvx32.i_vpermb (r 0) (r 1) (o 2))
     (fun v => let (o, a, r, n, e, s) := v in MnemonicAvx.i_vpermb (r 0) (r 1) (widen_op (o 2)));
   mkB "vpermi2b" (fun v => let (o, a, r, n, e, s) := v in MnemonicAvx32.i_vpermi2b (r 0) (r 1) (o 2))
     (fun v => let (o, a, r, n, e, s) := v in MnemonicAvx.i_vpermi2b (r 0) (r 1) (widen_op (o 2)));
   mkB "vpermi2d" (fun v => let (o, a, r, n, e, s) := v in MnemonicAvx32.i_vpermi2d (r 0) (r 1) (o 2))
     (fun v => let (o, a, r, n, e, s) := v in MnemonicAvx.i_vpermi2d (r 0) (r 1) (widen_op (o 2)));
   mkB "vpermi2pd" (fun v => let (o, a, r, n, e, s) := v in MnemonicAvx32.i_vpermi2pd (r 0) (r 1) (o 2))
     (fun v => let (o, a, r, n, e, s) := v in MnemonicAvx.i_vpermi2pd (r 0) (r 1) (widen_op (o 2)));
   mkB "vpermi2ps" (fun v => let (o, a, r, n, e, s) := v in MnemonicAvx32.i_vpermi2ps (r 0) (r 1) (o 2))
     (fun v => let (o, a, r, n, e, s) := v in MnemonicAvx.i_vpermi2ps (r 0) (r 1) (widen_op (o 2)));
   mkB "vpermi2q" (fun v => let (o, a, r, n, e, s) := v in MnemonicAvx32.i_vpermi2q (r 0) (r 1) (o 2))
     (fun v => let (o, a, r, n, e, s) := v in MnemonicAvx.i_vpermi2q (r 0) (r 1) (widen_op (o 2)));
   mkB "vpermi2w" (fun v => let (o, a, r, n, e, s) := v in MnemonicAvx32.i_vpermi2w (r 0) (r 1) (o 2))
     (fun v => let (o, a, r, n, e, s) := v in MnemonicAvx.i_vpermi2w (r 0) (r 1) (widen_op (o 2)));
   mkB "vpermt2b" (fun v => let (o, a, r, n, e, s) := v in MnemonicAvx32.i_vpermt2b (r 0) (r 1) (o 2))
     (fun v => let (o, a, r, n, e, s) := v in MnemonicAvx.i_vpermt2b (r 0) (r 1) (widen_op (o 2)));
   mkB "vpermt2d" (fun v => let (o, a, r, n, e, s) := v in MnemonicAvx32.i_vpermt2d (r 0) (r 1) (o 2))
     (fun v => let (o, a, r, n, e, s) := v in MnemonicAvx.i_vpermt2d (r 0) (r 1) (widen_op (o 2)));
   mkB "vpermt2pd" (fun v => let (o, a, r, n, e, s) := v in MnemonicAvx32.i_vpermt2pd (r 0) (r 1) (o 2))
     (fun v => let (o, a, r, n, e, s) := v in MnemonicAvx.i_vpermt2pd (r 0) (r 1) (widen_op (o 2)));
   mkB "vpermt2ps" (fun v => let (o, a, r, n, e, s) := v in MnemonicAvx32.i_vpermt2ps (r 0) (r 1) (o 2))
     (fun v => let (o, a, r, n, e, s) := v in MnemonicAvx.i_vpermt2ps (r 0) (r 1) (widen_op (o 2)));
   mkB "vpermt2q" (fun v => let (o, a, r, n, e, s) := v in MnemonicAvx32.i_vpermt2q (r 0) (r 1) (o 2))
     (fun v => let (o, a, r, n, e, s) := v in MnemonicAvx.i_vpermt2q (r 0) (r 1) (widen_op (o 2)));
   mkB "vpermt2w" (fun v => let (o, a, r, n, e, s) := v in MnemonicAvx32.i_vpermt2w (r 0) (r 1) (o 2))
     (fun v => let (o, a, r, n, e, s) := v in MnemonicAvx.i_vpermt2w (r 0) (r 1) (widen_op (o 2)));
   mkB "vpermw" (fun v => let (o, a, r, n, e, s) := v in MnemonicAvx32.i_vpermw (r 0) (r 1) (o 2))
     (fun v => let (o, a, r, n, e, s) := v in MnemonicAvx.i_vpermw (r 0) (r 1) (widen_op (o 2)));
   mkB "vpexpandb" (fun v => let (o, a, r, n, e, s) := v in MnemonicAvx32.i_vpexpandb (r 0) (o 1))
     (fun v => let (o, a, r, n, e, s) := v in MnemonicAvx.i_vpexpandb (r 0) (widen_op (o 1)));
   mkB "vpexpandd" (fun v => let (o, a, r, n, e, s) := v in MnemonicAvx32.i_vpexpandd (r 0) (o 1))
     (fun v => let (o, a, r, n, e, s) := v in MnemonicAvx.i_vpexpandd (r 0) (widen_op (o 1)));
   mkB "vpexpandq" (fun v => let (o, a, r, n, e, s) := v in MnemonicAvx32.i_vpexpandq (r 0) (o 1))
     (fun v => let (o, a, r, n, e, s) := v in MnemonicAvx.i_vpexpandq (r 0) (widen_op (o 1)));
   mkB "vpexpandw" (fun v => let (o, a, r, n, e, s) := v in MnemonicAvx32.i_vpexpandw (r 0) (o 1))
     (fun v => let (o, a, r, n, e, s) := v in MnemonicAvx.i_vpexpandw (r 0) (widen_op (o 1)));
   mkB "vpgatherdd_xa" (fun v => let (o, a, r, n, e, s) := v in MnemonicAvx32.i_vpgatherdd_xa (r 0) (a 1))
     (fun v => let (o, a, r, n, e, s) := v in MnemonicAvx.i_vpgatherdd_xa (r 0) (widen_addr (a 1)))].
Lemma sims71_ok : Forall same sims71.
Proof. unfold sims71.
row. { unfold MnemonicAvx32.i_vpdpwsud, MnemonicAvx.i_vpdpwsud. row_sim. }
row. { unfold MnemonicAvx32.i_vpdpwsuds, MnemonicAvx.i_vpdpwsuds. row_sim. }
row. { unfold MnemonicAvx32.i_vpdpwusd, MnemonicAvx.i_vpdpwusd. row_sim. }
row. { unfold MnemonicAvx32.i_vpdpwusds, MnemonicAvx.i_vpdpwusds. row_sim. }
row. { unfold MnemonicAvx32.i_vpdpwuud, MnemonicAvx.i_vpdpwuud. row_sim. }
row. { unfold MnemonicAvx32.i_vpdpwuuds, MnemonicAvx.i_vpdpwuuds. row_sim. }
row. { unfold MnemonicAvx32.i_vpermb, MnemonicAvx.i_vpermb. row_sim. }
row. { unfold MnemonicAvx32.i_vpermi2b, MnemonicAvx.i_vpermi2b. row_sim. }
row. { unfold MnemonicAvx32.i_vpermi2d, MnemonicAvx.i_vpermi2d. row_sim. }
row. { unfold MnemonicAvx32.i_vpermi2pd, MnemonicAvx.i_vpermi2pd. row_sim. }
row. { unfold MnemonicAvx32.i_vpermi2ps, MnemonicAvx.i_vpermi2ps. row_sim. }
row. { unfold MnemonicAvx32.i_vpermi2q, MnemonicAvx.i_vpermi2q. row_sim. }
row. { unfold MnemonicAvx32.i_vpermi2w, MnemonicAvx.i_vpermi2w. row_sim. }
row. { unfold MnemonicAvx32.i_vpermt2b, MnemonicAvx.i_vpermt2b. row_sim. }
row. { unfold MnemonicAvx32.i_vpermt2d, MnemonicAvx.i_vpermt2d. row_sim. }
row. { unfold MnemonicAvx32.i_vpermt2pd, MnemonicAvx.i_vpermt2pd. row_sim. }
row. { unfold MnemonicAvx32.i_vpermt2ps, MnemonicAvx.i_vpermt2ps. row_sim. }
row. { unfold MnemonicAvx32.i_vpermt2q, MnemonicAvx.i_vpermt2q. row_sim. }
row. { unfold MnemonicAvx32.i_vpermt2w, MnemonicAvx.i_vpermt2w. row_sim. }
row. { unfold MnemonicAvx32.i_vpermw, MnemonicAvx.i_vpermw. row_sim. }
row. { unfold MnemonicAvx32.i_vpexpandb, MnemonicAvx.i_vpexpandb. row_sim. }
row. { unfold MnemonicAvx32.i_vpexpandd, MnemonicAvx.i_vpexpandd. row_sim. }
row. { unfold MnemonicAvx32.i_vpexpandq, MnemonicAvx.i_vpexpandq. row_sim. }
row. { unfold MnemonicAvx32.i_vpexpandw, MnemonicAvx.i_vpexpandw. row_sim. }
row. { unfold MnemonicAvx32.i_vpgatherdd_xa, MnemonicAvx.i_vpgatherdd_xa. row_sim. }
apply Forall_nil. Qed.
Definition sims72 : list b_entry :=
  [mkB "vpgatherdq_xa" (fun v => let (o, a, r, n, e, s) := v in MnemonicAvx32.i_vpgatherdq_xa (r 0) (a 1))
     (fun v => let (o, a, r, n, e, s) := v in MnemonicAvx.i_vpgatherdq_xa (r 0) (widen_addr (a 1)));
   mkB "vpgatherqd_xa" (fun v => let (o, a, r, n, e, s) := v in MnemonicAvx32.i_vpgatherqd_xa (r 0) (a 1))
     (fun v => let (o, a, r, n, e, s) := v in MnemonicAvx.i_vpgatherqd_xa (r 0) (widen_addr (a 1)));
   mkB "vpgatherqq_xa" (fun v => let (o, a, r, n, e, s) := v in MnemonicAvx32.i_vpgatherqq_xa (r 0) (a 1))
     (fun v => let (o, a, r, n, e, s) := v in MnemonicAvx.i_vpgatherqq_xa (r 0) (widen_addr (a 1)));
   mkB "vplzcntd" (fun v => let (o, a, r, n, e, s) := v in MnemonicAvx32.i_vplzcntd (r 0) (o 1))
     (fun v => let (o, a, r, n, e, s) := v in MnemonicAvx.i_vplzcntd (r 0) (widen_op (o 1)));
   mkB "vplzcntq" (fun v => let (o, a, r, n, e, s) := v in MnemonicAvx32.i_vplzcntq (r 0) (o 1))
     (fun v => let (o, a, r, n, e, s) := v in MnemonicAvx.i_vplzcntq (r 0) (widen_op (o 1)));
   mkB "vpmadd52huq" (fun v => let (o, a, r, n, e, s) := v in MnemonicAvx32.i_vpmadd52huq (r 0) (r 1) (o 2))
     (fun v => let (o, a, r, n, e, s) := v in MnemonicAvx.i_vpmadd52huq (r 0) (r 1) (widen_op (o 2)));
   mkB "vpmadd52luq" (fun v => let (o, a, r, n, e, s) := v in MnemonicAvx32.i_vpmadd52luq (r 0) (r 1) (o 2))
     (fun v => let (o, a, r, n, e, s) := v in MnemonicAvx.i_vpmadd52luq (r 0) (r 1) (widen_op (o 2)));
   mkB "vpmaxsq" (fun v => let (o, a, r, n, e, s) := v in MnemonicAvx32.i_vpmaxsq (r 0) (r 1) (o 2))
     (fun v => let (o, a, r, n, e, s) := v in MnemonicAvx.i_vpmaxsq (r 0) (r 1) (widen_op (o 2)));
   mkB "vpmaxuq" (fun v => let (o, a, r, n, e, s) := v in MnemonicAvx32.i_vpmaxuq (r 0) (r 1) (o 2))
     (fun v => let (o, a, r, n, e, s) := v in MnemonicAvx.i_vpmaxuq (r 0) (r 1) (widen_op (o 2)));
   mkB "vpminsq" (fun v => let (o, a, r, n, e, s) := v in MnemonicAvx32.i_vpminsq (r 0) (r 1) (o 2))
     (fun v => let (o, a, r, n, e, s) := v in MnemonicAvx.i_vpminsq (r 0) (r 1) (widen_op (o 2)));
   mkB "vpminuq" (fun v => let (o, a, r, n, e, s) := v in MnemonicAvx32.i_vpminuq (r 0) (r 1) (o 2))
     (fun v => let (o, a, r, n, e, s) := v in MnemonicAvx.i_vpminuq (r 0) (r 1) (widen_op (o 2)));
   mkB "vpmovb2m" (fun v => let (o, a, r, n, e, s) := v in MnemonicAvx32.i_vpmovb2m (r 0) (r 1))
     (fun v => let (o, a, r, n, e, s) := v in MnemonicAvx.i_vpmovb2m (r 0) (r 1));
   mkB "vpmovd2m" (fun v => let (o, a, r, n, e, s) := v in MnemonicAvx32.i_vpmovd2m (r 0) (r 1))
     (fun v => let (o, a, r, n, e, s) := v in MnemonicAvx.i_vpmovd2m (r 0) (r 1));
   mkB "vpmovdb" (fun v => let (o, a, r, n, e, s) := v in MnemonicAvx32.i_vpmovdb (o 0) (r 1))
     (fun v => let (o, a, r, n, e, s) := v in MnemonicAvx.i_vpmovdb (widen_op (o 0)) (r 1));
   mkB "vpmovdw" (fun v => let (o, a, r, n, e, s) := v in MnemonicAvx32.i_vpmovdw (o 0) (r 1))
     (fun v => let (o, a, r, n, e, s) := v in MnemonicAvx.i_vpmovdw (widen_op (o 0)) (r 1));
   mkB "vpmovm2b" (fun v => let (o, a, r, n, e, s) := v in MnemonicAvx32.i_vpmovm2b (r 0) (r 1))
     (fun v => let (o, a, r, n, e, s) := v in MnemonicAvx.i_vpmovm2b (r 0) (r 1));
   mkB "vpmovm2d" (fun v => let (o, a, r, n, e, s) := v in MnemonicAvx32.i_vpmovm2d (r 0) (r 1))
     (fun v => let (o, a, r, n, e, s) := v in MnemonicAvx.i_vpmovm2d (r 0) (r 1));
   mkB "vpmovm2q" (fun v => let (o, a, r, n, e, s) := v in MnemonicAvx32.i_vpmovm2q (r 0) (r 1))
     (fun v => let (o, a, r, n, e, s) := v in MnemonicAvx.i_vpmovm2q (r 0) (r 1));
   mkB "vpmovm2w" (fun v => let (o, a, r, n, e, s) := v in MnemonicAvx32.i_vpmovm2w (r 0) (r 1))
     (fun v => let (o, a, r, n, e, s) := v in MnemonicAvx.i_vpmovm2w (r 0) (r 1));
   mkB "vpmovq2m" (fun v => let (o, a, r, n, e, s) := v in MnemonicAvx32.i_vpmovq2m (r 0) (r 1))
     (fun v => let (o, a, r, n, e, s) := v in MnemonicAvx.i_vpmovq2m (r 0) (r 1));
   mkB "vpmovqb" (fun v => let (o, a, r, n, e, s) := v in MnemonicAvx32.i_vpmovqb (o 0) (r 1))
     (fun v => let (o, a, r, n, e, s) := v in MnemonicAvx.i_vpmovqb (widen_op (o 0)) (r 1));
   mkB "vpmovqd" (fun v => let (o, a, r, n, e, s) := v in MnemonicAvx32.i_vpmovqd (o 0) (r 1))
     (fun v => let (o, a, r, n, e, s) := v in MnemonicAvx.i_vpmovqd (widen_op (o 0)) (r 1));
   mkB "vpmovqw" (fun v => let (o, a, r, n, e, s) := v in MnemonicAvx32.i_vpmovqw (o 0) (r 1))
     (fun v => let (o, a, r, n, e, s) := v in MnemonicAvx.i_vpmovqw (widen_op (o 0)) (r 1));
   mkB "vpmovsdb" (fun v => let (o, a, r, n, e, s) := v in MnemonicAvx32.i_vpmovsdb (o 0) (r 1))
     (fun v => let (o, a, r, n, e, s) := v in MnemonicAvx.i_vpmovsdb (widen_op (o 0)) (r 1));
   mkB "vpmovsdw" (fun v => let (o, a, r, n, e, s) := v in MnemonicAvx32.i_vpmovsdw (o 0) (r 1))
     (fun v => let (o, a, r, n, e, s) := v in MnemonicAvx.i_vpmovsdw (widen_op (o 0)) (r 1))].
Lemma sims72_ok : Forall same sims72.
Proof. unfold sims72.
row. { unfold MnemonicAvx32.i_vpgatherdq_xa, MnemonicAvx.i_vpgatherdq_xa. row_sim. }
row. { unfold MnemonicAvx32.i_vpgatherqd_xa, MnemonicAvx.i_vpgatherqd_xa. row_sim. }
row. { unfold MnemonicAvx32.i_vpgatherqq_xa, MnemonicAvx.i_vpgatherqq_xa. row_sim. }
row. { unfold MnemonicAvx32.i_vplzcntd, MnemonicAvx.i_vplzcntd. row_sim. }
row. { unfold MnemonicAvx32.i_vplzcntq, MnemonicAvx.i_vplzcntq. row_sim. }
row. { unfold MnemonicAvx32.i_vpmadd52huq, MnemonicAvx.i_vpmadd52huq. row_sim. }
row. { unfold MnemonicAvx32.i_vpmadd52luq, MnemonicAvx.i_vpmadd52luq. row_sim. }
row. { unfold MnemonicAvx32.i_vpmaxsq, MnemonicAvx.i_vpmaxsq. row_sim. }
row. { unfold MnemonicAvx32.i_vpmaxuq, MnemonicAvx.i_vpmaxuq. row_sim. }
row. { unfold MnemonicAvx32.i_vpminsq, MnemonicAvx.i_vpminsq. row_sim. }
row. { unfold MnemonicAvx32.i_vpminuq, MnemonicAvx.i_vpminuq. row_sim. }
row. { unfold MnemonicAvx32.i_vpmovb2m, MnemonicAvx.i_vpmovb2m. row_sim. }
row. { unfold MnemonicAvx32.i_vpmovd2m, MnemonicAvx.i_vpmovd2m. row_sim. }
row. { unfold MnemonicAvx32.i_vpmovdb, MnemonicAvx.i_vpmovdb. row_sim. }
row. { unfold MnemonicAvx32.i_vpmovdw, MnemonicAvx.i_vpmovdw. row_sim. }
row. { unfold MnemonicAvx32.i_vpmovm2b, MnemonicAvx.i_vpmovm2b. row_sim. }
row. { unfold MnemonicAvx32.i_vpmovm2d, MnemonicAvx.i_vpmovm2d. row_sim. }
row. { unfold MnemonicAvx32.i_vpmovm2q, MnemonicAvx.i_vpmovm2q. row_sim. }
row. { unfold MnemonicAvx32.i_vpmovm2w, MnemonicAvx.i_vpmovm2w. row_sim. }
row. { unfold MnemonicAvx32.i_vpmovq2m, MnemonicAvx.i_vpmovq2m. row_sim. }
row. { unfold MnemonicAvx32.i_vpmovqb, MnemonicAvx.i_vpmovqb. row_sim. }
row. { unfold MnemonicAvx32.i_vpmovqd, MnemonicAvx.i_vpmovqd. row_sim. }
row. { unfold MnemonicAvx32.i_vpmovqw, MnemonicAvx.i_vpmovqw. row_sim. }
row. { unfold MnemonicAvx32.i_vpmovsdb, MnemonicAvx.i_vpmovsdb. row_sim. }
row. { unfold MnemonicAvx32.i_vpmovsdw, MnemonicAvx.i_vpmovsdw. row_sim. }
apply Forall_nil. Qed.
Definition sims73 : list b_entry :=
  [mkB "vpmovsqb" (fun v => let (o, a, r, n, e, s) := v in MnemonicAvx32.i_vpmovsqb (o 0) (r 1))
     (fun v => let (o, a, r, n, e, s) := v in MnemonicAvx.i_vpmovsqb (widen_op (o 0)) (r 1));
   mkB "vpmovsqd" (fun v => let (o, a, r, n, e, s) := v in MnemonicAvx32.i_vpmovsqd (o 0) (r 1))
     (fun v => let (o, a, r, n, e, s) := v in MnemonicAvx.i_vpmovsqd (widen_op (o 0)) (r 1));
   mkB "vpmovsqw" (fun v => let (o, a, r, n, e, s) := v in MnemonicAvx32.i_vpmovsqw (o 0) (r 1))
     (fun v => let (o, a, r, n, e, s) := v in MnemonicAvx.i_vpmovsqw (widen_op (o 0)) (r 1));
   mkB "vpmovswb" (fun v => let (o, a, r, n, e, s) := v in MnemonicAvx32.i_vpmovswb (o 0) (r 1))
     (fun v => let (o, a, r, n, e, s) := v in MnemonicAvx.i_vpmovswb (widen_op (o 0)) (r 1));
   mkB "vpmovusdb" (fun v => let (o, a, r, n, e, s) := v in MnemonicAvx32.i_vpmovusdb (o 0) (r 1))
     (fun v => let (o, a, r, n, e, s) := v in MnemonicAvx.i_vpmovusdb (widen_op (o 0)) (r 1));
   mkB "vpmovusdw" (fun v => let (o, a, r, n, e, s) := v in MnemonicAvx32.i_vpmovusdw (o 0) (r 1))
     (fun v => let (o, a, r, n, e, s) := v in MnemonicAvx.i_vpmovusdw (widen_op (o 0)) (r 1));
   mkB "vpmovusqb" (fun v => let (o, a, r, n, e, s) := v in MnemonicAvx32.i_vpmovusqb (o 0) (r 1))
     (fun v => let (o, a, r, n, e, s) := v in MnemonicAvx.i_vpmovusqb (widen_op (o 0)) (r 1));
   mkB "vpmovusqd" (fun v => let (o, a, r, n, e, s) := v in MnemonicAvx32.i_vpmovusqd (o 0) (r 1))
     (fun v => let (o, a, r, n, e, s) := v in MnemonicAvx.i_vpmovusqd (widen_op (o 0)) (r 1));
   mkB "vpmovusqw" (fun v => let (o, a, r, n, e, s) := v in MnemonicAvx32.i_vpmovusqw (o 0) (r 1))
     (fun v => let (o, a, r, n, e, s) := v in MnemonicAvx.i_vpmovusqw (widen_op (o 0)) (r 1));
   mkB "vpmovuswb" (fun v => let (o, a, r, n, e, s) := v in MnemonicAvx32.i_vpmovuswb (o 0) (r 1))
     (fun v => let (o, a, r, n, e, s) := v in MnemonicAvx.i_vpmovuswb (widen_op (o 0)) (r 1));
   mkB "vpmovw2m" (fun v => let (o, a, r, n, e, s) := v in MnemonicAvx32.i_vpmovw2m (r 0) (r 1))
     (fun v => let (o, a, r, n, e, s) := v in MnemonicAvx.i_vpmovw2m (r 0) (r 1));
   mkB "vpmovwb" (fun v => let (o, a, r, n, e, s) := v in MnemonicAvx32.i_vpmovwb (o 0) (r 1))
     (fun v => let (o, a, r, n, e, s) := v in MnemonicAvx.i_vpmovwb (widen_op (o 0)) (r 1));
   mkB "vpmullq" (fun v => let (o, a, r, n, e, s) := v in MnemonicAvx32.i_vpmullq (r 0) (r 1) (o 2))
     (fun v => let (o, a, r, n, e, s) := v in MnemonicAvx.i_vpmullq (r 0) (r 1) (widen_op (o 2)));
   mkB "vpmultishiftqb" (fun v => let (o, a, r, n, e, s) := v in MnemonicAvx32.i_vpmultishiftqb (r 0) (r 1) (o 2))
     (fun v => let (o, a, r, n, e, s) := v in MnemonicAvx.i_vpmultishiftqb (r 0) (r 1) (widen_op (o 2)));
   mkB "vpopcntb" (fun v => let (o, a, r, n, e, s) := v in MnemonicAvx32.i_vpopcntb (r 0) (o 1))
     (fun v => let (o, a, r, n, e, s) := v in MnemonicAvx.i_vpopcntb (r 0) (widen_op (o 1)));
   mkB "vpopcntd" (fun v => let (o, a, r, n, e, s) := v in MnemonicAvx32.i_vpopcntd (r 0) (o 1))
     (fun v => let (o, a, r, n, e, s) := v in MnemonicAvx.i_vpopcntd (r 0) (widen_op (o 1)));
   mkB "vpopcntq" (fun v => let (o, a, r, n, e, s) := v in MnemonicAvx32.i_vpopcntq (r 0) (o 1))
     (fun v => let (o, a, r, n, e, s) := v in MnemonicAvx.i_vpopcntq (r 0) (widen_op (o 1)));
   mkB "vpopcntw" (fun v => let (o, a, r, n, e, s) := v in MnemonicAvx32.i_vpopcntw (r 0) (o 1))
     (fun v => let (o, a, r, n, e, s) := v in MnemonicAvx.i_vpopcntw (r 0) (widen_op (o 1)));
   mkB "vpord" (fun v => let (o, a, r, n, e, s) := v in MnemonicAvx32.i_vpord (r 0) (r 1) (o 2))
     (fun v => let (o, a, r, n, e, s) := v in MnemonicAvx.i_vpord (r 0) (r 1) (widen_op (o 2)));
   mkB "vporq" (fun v => let (o, a, r, n, e, s) := v in MnemonicAvx32.i_vporq (r 0) (r 1) (o 2))
     (fun v => let (o, a, r, n, e, s) := v in MnemonicAvx.i_vporq (r 0) (r 1) (widen_op (o 2)));
   mkB "vprold" (fun v => let (o, a, r, n, e, s) := v in MnemonicAvx32.i_vprold (r 0) (o 1) (n 2))
     (fun v => let (o, a, r, n, e, s) := v in MnemonicAvx.i_vprold (r 0) (widen_op (o 1)) (n 2));
   mkB "vprolq" (fun v => let (o, a, r, n, e, s) := v in MnemonicAvx32.i_vprolq (r 0) (o 1) (n 2))
     (fun v => let (o, a, r, n, e, s) := v in MnemonicAvx.i_vprolq (r 0) (widen_op (o 1)) (n 2));
   mkB "vprolvd" (fun v => let (o, a, r, n, e, s) := v in MnemonicAvx32.i_vprolvd (r 0) (r 1) (o 2))
     (fun v => let (o, a, r, n, e, s) := v in MnemonicAvx.i_vprolvd (r 0) (r 1) (widen_op (o 2)));
   mkB "vprolvq" (fun v => let (o, a, r, n, e, s) := v in MnemonicAvx32.i_vprolvq (r 0) (r 1) (o 2))
     (fun v => let (o, a, r, n, e, s) := v in MnemonicAvx.i_vprolvq (r 0) (r 1) (widen_op (o 2)));
   mkB "vprord" (fun v => let (o, a, r, n, e, s) := v in MnemonicAvx32.i_vprord (r 0) (o 1) (n 2))
     (fun v => let (o, a, r, n, e, s) := v in MnemonicAvx.i_vprord (r 0) (widen_op (o 1)) (n 2))].
Lemma sims73_ok : Forall same sims73.
Proof. unfold sims73.
row. { unfold MnemonicAvx32.i_vpmovsqb, MnemonicAvx.i_vpmovsqb. row_sim. }
row. { unfold MnemonicAvx32.i_vpmovsqd, MnemonicAvx.i_vpmovsqd. row_sim. }
row. { unfold MnemonicAvx32.i_vpmovsqw, MnemonicAvx.i_vpmovsqw. row_sim. }
row. { unfold MnemonicAvx32.i_vpmovswb, MnemonicAvx.i_vpmovswb. row_sim. }
row. { unfold MnemonicAvx32.i_vpmovusdb, MnemonicAvx.i_vpmovusdb. row_sim. }
row. { unfold MnemonicAvx32.i_vpmovusdw, MnemonicAvx.i_vpmovusdw. row_sim. }
row. { unfold MnemonicAvx32.i_vpmovusqb, MnemonicAvx.i_vpmovusqb. row_sim. }
row. { unfold MnemonicAvx32.i_vpmovusqd, MnemonicAvx.i_vpmovusqd. row_sim. }
row. { unfold MnemonicAvx32.i_vpmovusqw, MnemonicAvx.i_vpmovusqw. row_sim. }
row. { unfold MnemonicAvx32.i_vpmovuswb, MnemonicAvx.i_vpmovuswb. row_sim. }
row. { unfold MnemonicAvx32.i_vpmovw2m, MnemonicAvx.i_vpmovw2m. row_sim. }
row. { unfold MnemonicAvx32.i_vpmovwb, MnemonicAvx.i_vpmovwb. row_sim. }
row. { unfold MnemonicAvx32.i_vpmullq, MnemonicAvx.i_vpmullq. row_sim. }
row. { unfold MnemonicAvx32.i_vpmultishiftqb, MnemonicAvx.i_vpmultishiftqb. row_sim. }
row. { unfold MnemonicAvx32.i_vpopcntb, MnemonicAvx.i_vpopcntb. row_sim. }
row. { unfold MnemonicAvx32.i_vpopcntd, MnemonicAvx.i_vpopcntd. row_sim. }
row. { unfold MnemonicAvx32.i_vpopcntq, MnemonicAvx.i_vpopcntq. row_sim. }
row. { unfold MnemonicAvx32.i_vpopcntw, MnemonicAvx.i_vpopcntw. row_sim. }
row. { unfold MnemonicAvx32.i_vpord, MnemonicAvx.i_vpord. row_sim. }
row. { unfold MnemonicAvx32.i_vporq, MnemonicAvx.i_vporq. row_sim. }
row. { unfold MnemonicAvx32.i_vprold, MnemonicAvx.i_vprold. row_sim. }
row. { unfold MnemonicAvx32.i_vprolq, MnemonicAvx.i_vprolq. row_sim. }
row. { unfold MnemonicAvx32.i_vprolvd, MnemonicAvx.i_vprolvd. row_sim. }
row. { unfold MnemonicAvx32.i_vprolvq, MnemonicAvx.i_vprolvq. row_sim. }
row. { unfold MnemonicAvx32.i_vprord, MnemonicAvx.i_vprord. row_sim. }
apply Forall_nil. Qed.
Definition sims74 : list b_entry :=
  [mkB "vprorq" (fun v => let (o, a, r, n, e, s) := v in MnemonicAvx32.i_vprorq (r 0) (o 1) (n 2))
     (fun v => let (o, a, r, n, e, s) := v in MnemonicAvx.i_vprorq (r 0) (widen_op (o 1)) (n 2));
   mkB "vprorvd" (fun v => let (o, a, r, n, e, s) := v in MnemonicAvx32.i_vprorvd (r 0) (r 1) (o 2))
     (fun v => let (o, a, r, n, e, s) := v in MnemonicAvx.i_vprorvd (r 0) (r 1) (widen_op (o 2)));
   mkB "vprorvq" (fun v => let (o, a, r, n, e, s) := v in MnemonicAvx32.i_vprorvq (r 0) (r 1) (o 2))
     (fun v => let (o, a, r, n, e, s) := v in MnemonicAvx.i_vprorvq (r 0) (r 1) (widen_op (o 2)));
   mkB "vpscatterdd" (fun v => let (o, a, r, n, e, s) := v in MnemonicAvx32.i_vpscatterdd (a 0) (r 1))
     (fun v => let (o, a, r, n, e, s) := v in MnemonicAvx.i_vpscatterdd (widen_addr (a 0)) (r 1));
   mkB "vpscatterdq" (fun v => let (o, a, r, n, e, s) := v in MnemonicAvx32.i_vpscatterdq (a 0) (r 1))
     (fun v => let (o, a, r, n, e, s) := v in MnemonicAvx.i_vpscatterdq (widen_addr (a 0)) (r 1));
   mkB "vpscatterqd" (fun v => let (o, a, r, n, e, s) := v in MnemonicAvx32.i_vpscatterqd (a 0) (r 1))
     (fun v => let (o, a, r, n, e, s) := v in MnemonicAvx.i_vpscatterqd (widen_addr (a 0)) (r 1));
   mkB "vpscatterqq" (fun v => let (o, a, r, n, e, s) := v in MnemonicAvx32.i_vpscatterqq (a 0) (r 1))
     (fun v => let (o, a, r, n, e, s) := v in MnemonicAvx.i_vpscatterqq (widen_addr (a 0)) (r 1));
   mkB "vpshldd" (fun v => let (o, a, r, n, e, s) := v in MnemonicAvx32.i_vpshldd (r 0) (r 1) (o 2) (n 3))
     (fun v => let (o, a, r, n, e, s) := v in MnemonicAvx.i_vpshldd (r 0) (r 1) (widen_op (o 2)) (n 3));
   mkB "vpshldq" (fun v => let (o, a, r, n, e, s) := v in MnemonicAvx32.i_vpshldq (r 0) (r 1) (o 2) (n 3))
     (fun v => let (o, a, r, n, e, s) := v in MnemonicAvx.i_vpshldq (r 0) (r 1) (widen_op (o 2)) (n 3));
   mkB "vpshldvd" (fun v => let (o, a, r, n, e, s) := v in MnemonicAvx32.i_vpshldvd (r 0) (r 1) (o 2))
     (fun v => let (o, a, r, n, e, s) := v in MnemonicAvx.i_vpshldvd (r 0) (r 1) (widen_op (o 2)));
   mkB "vpshldvq" (fun v => let (o, a, r, n, e, s) := v in MnemonicAvx32.i_vpshldvq (r 0) (r 1) (o 2))
     (fun v => let (o, a, r, n, e, s) := v in MnemonicAvx.i_vpshldvq (r 0) (r 1) (widen_op (o 2)));
   mkB "vpshldvw" (fun v => let (o, a, r, n, e, s) := v in MnemonicAvx32.i_vpshldvw (r 0) (r 1) (o 2))
     (fun v => let (o, a, r, n, e, s) := v in MnemonicAvx.i_vpshldvw (r 0) (r 1) (widen_op (o 2)));
   mkB "vpshldw" (fun v => let (o, a, r, n, e, s) := v in MnemonicAvx32.i_vpshldw (r 0) (r 1) (o 2) (n 3))
     (fun v => let (o, a, r, n, e, s) := v in MnemonicAvx.i_vpshldw (r 0) (r 1) (widen_op (o 2)) (n 3));
   mkB "vpshrdd" (fun v => let (o, a, r, n, e, s) := v in MnemonicAvx32.i_vpshrdd (r 0) (r 1) (o 2) (n 3))
     (fun v => let (o, a, r, n, e, s) := v in MnemonicAvx.i_vpshrdd (r 0) (r 1) (widen_op (o 2)) (n 3));
   mkB "vpshrdq" (fun v => let (o, a, r, n, e, s) := v in MnemonicAvx32.i_vpshrdq (r 0) (r 1) (o 2) (n 3))
     (fun v => let (o, a, r, n, e, s) := v in MnemonicAvx.i_vpshrdq (r 0) (r 1) (widen_op (o 2)) (n 3));
   mkB "vpshrdvd" (fun v => let (o, a, r, n, e, s) := v in MnemonicAvx32.i_vpshrdvd (r 0) (r 1) (o 2))
     (fun v => let (o, a, r, n, e, s) := v in MnemonicAvx.i_vpshrdvd (r 0) (r 1) (widen_op (o 2)));
   mkB "vpshrdvq" (fun v => let (o, a, r, n, e, s) := v in MnemonicAvx32.i_vpshrdvq (r 0) (r 1) (o 2))
     (fun v => let (o, a, r, n, e, s) := v in MnemonicAvx.i_vpshrdvq (r 0) (r 1) (widen_op (o 2)));
   mkB "vpshrdvw" (fun v => let (o, a, r, n, e, s) := v in MnemonicAvx32.i_vpshrdvw (r 0) (r 1) (o 2))
     (fun v => let (o, a, r, n, e, s) := v in MnemonicAvx.i_vpshrdvw (r 0) (r 1) (widen_op (o 2)));
   mkB "vpshrdw" (fun v => let (o, a, r, n, e, s) := v in MnemonicAvx32.i_vpshrdw (r 0) (r 1) (o 2) (n 3))
     (fun v => let (o, a, r, n, e, s) := v in MnemonicAvx.i_vpshrdw (r 0) (r 1) (widen_op (o 2)) (n 3));
   mkB "vpshufbitqmb" (fun v => let (o, a, r, n, e, s) := v in MnemonicAvx32.i_vpshufbitqmb (r 0) (r 1) (o 2))
     (fun v => let (o, a, r, n, e, s) := v in MnemonicAvx.i_vpshufbitqmb (r 0) (r 1) (widen_op (o 2)));
   mkB "vpsllvw" (fun v => let (o, a, r, n, e, s) := v in MnemonicAvx32.i_vpsllvw (r 0) (r 1) (o 2))
     (fun v => let (o, a, r, n, e, s) := v in MnemonicAvx.i_vpsllvw (r 0) (r 1) (widen_op (o 2)));
   mkB "vpsraq_xoi" (fun v => let (o, a, r, n, e, s) := v in MnemonicAvx32.i_vpsraq_xoi (r 0) (o 1) (n 2))
     (fun v => let (o, a, r, n, e, s) := v in MnemonicAvx.i_vpsraq_xoi (r 0) (widen_op (o 1)) (n 2));
   mkB "vpsraq_xxo" (fun v => let (o, a, r, n, e, s) := v in MnemonicAvx32.i_vpsraq_xxo (r 0) (r 1) (o 2))
     (fun v => let (o, a, r, n, e, s) := v in MnemonicAvx.i_vpsraq_xxo (r 0) (r 1) (widen_op (o 2)));
   mkB "vpsravq" (fun v => let (o, a, r, n, e, s) := v in MnemonicAvx32.i_vpsravq (r 0) (r 1) (o 2))
     (fun v => let (o, a, r, n, e, s) := v in MnemonicAvx.i_vpsravq (r 0) (r 1) (widen_op (o 2)));
   mkB "vpsravw" (fun v => let (o, a, r, n, e, s) := v in MnemonicAvx32.i_vpsravw (r 0) (r 1) (o 2))
     (fun v => let (o, a, r, n, e, s) := v in MnemonicAvx.i_vpsravw (r 0) (r 1) (widen_op (o 2)))].
Lemma sims74_ok : Forall same sims74.
Proof. unfold sims74.
row. { unfold MnemonicAvx32.i_vprorq, MnemonicAvx.i_vprorq. row_sim. }
row. { unfold MnemonicAvx32.i_vprorvd, MnemonicAvx.i_vprorvd. row_sim. }
row. { unfold MnemonicAvx32.i_vprorvq, MnemonicAvx.i_vprorvq. row_sim. }
row. { unfold MnemonicAvx32.i_vpscatterdd, MnemonicAvx.i_vpscatterdd. row_sim. }
row. { unfold MnemonicAvx32.i_vpscatterdq, MnemonicAvx.i_vpscatterdq. row_sim. }
row. { unfold MnemonicAvx32.i_vpscatterqd, MnemonicAvx.i_vpscatterqd. row_sim. }
row. { unfold MnemonicAvx32.i_vpscatterqq, MnemonicAvx.i_vpscatterqq. row_sim. }
row. { unfold MnemonicAvx32.i_vpshldd, MnemonicAvx.i_vpshldd. row_sim. }
row. { unfold MnemonicAvx32.i_vpshldq, MnemonicAvx.i_vpshldq. row_sim. }
row. { unfold MnemonicAvx32.i_vpshldvd, MnemonicAvx.i_vpshldvd. row_sim. }
row. { unfold MnemonicAvx32.i_vpshldvq, MnemonicAvx.i_vpshldvq. row_sim. }
row. { unfold MnemonicAvx32.i_vpshldvw, MnemonicAvx.i_vpshldvw. row_sim. }
row. { unfold MnemonicAvx32.i_vpshldw, MnemonicAvx.i_vpshldw. row_sim. }
row. { unfold MnemonicAvx32.i_vpshrdd, MnemonicAvx.i_vpshrdd. row_sim. }
row. { unfold MnemonicAvx32.i_vpshrdq, MnemonicAvx.i_vpshrdq. row_sim. }
row. { unfold MnemonicAvx32.i_vpshrdvd, MnemonicAvx.i_vpshrdvd. row_sim. }
row. { unfold MnemonicAvx32.i_vpshrdvq, MnemonicAvx.i_vpshrdvq. row_sim. }
row. { unfold MnemonicAvx32.i_vpshrdvw, MnemonicAvx.i_vpshrdvw. row_sim. }
row. { unfold MnemonicAvx32.i_vpshrdw, MnemonicAvx.i_vpshrdw. row_sim. }
row. { unfold MnemonicAvx32.i_vpshufbitqmb, MnemonicAvx.i_vpshufbitqmb. row_sim. }
row. { unfold MnemonicAvx32.i_vpsllvw, MnemonicAvx.i_vpsllvw. row_sim. }
row. { unfold MnemonicAvx32.i_vpsraq_xoi, MnemonicAvx.i_vpsraq_xoi. row_sim. }
row. { unfold MnemonicAvx32.i_vpsraq_xxo, MnemonicAvx.i_vpsraq_xxo. row_sim. }
row. { unfold MnemonicAvx32.i_vpsravq, MnemonicAvx.i_vpsravq. row_sim. }
row. { unfold MnemonicAvx32.i_vpsravw, MnemonicAvx.i_vpsravw. row_sim. }
apply Forall_nil. Qed.
Definition sims75 : list b_entry :=
  [mkB "vpsrlvw" (fun v => let (o, a, r, n, e, s) := v in MnemonicAvx32.i_vpsrlvw (r 0) (r 1) (o 2))
     (fun v => let (o, a, r, n, e, s) := v in MnemonicAvx.i_vpsrlvw (r 0) (r 1) (widen_op (o 2)));
   mkB "vpternlogd" (fun v => let (o, a, r, n, e, s) := v in MnemonicAvx32.i_vpternlogd (r 0) (r 1) (o 2) (n 3))
     (fun v => let (o, a, r, n, e, s) := v in MnemonicAvx.i_vpternlogd (r 0) (r 1) (widen_op (o 2)) (n 3));
   mkB "vpternlogq" (fun v => let (o, a, r, n, e, s) := v in MnemonicAvx32.i_vpternlogq (r 0) (r 1) (o 2) (n 3))
     (fun v => let (o, a, r, n, e, s) := v in MnemonicAvx.i_vpternlogq (r 0) (r 1) (widen_op (o 2)) (n 3));
   mkB "vptestmb" (fun v => let (o, a, r, n, e, s) := v in MnemonicAvx32.i_vptestmb (r 0) (r 1) (o 2))
     (fun v => let (o, a, r, n, e, s) := v in MnemonicAvx.i_vptestmb (r 0) (r 1) (widen_op (o 2)));
   mkB "vptestmd" (fun v => let (o, a, r, n, e, s) := v in MnemonicAvx32.i_vptestmd (r 0) (r 1) (o 2))
     (fun v => let (o, a, r, n, e, s) := v in MnemonicAvx.i_vptestmd (r 0) (r 1) (widen_op (o 2)));
   mkB "vptestmq" (fun v => let (o, a, r, n, e, s) := v in MnemonicAvx32.i_vptestmq (r 0) (r 1) (o 2))
     (fun v => let (o, a, r, n, e, s) := v in MnemonicAvx.i_vptestmq (r 0) (r 1) (widen_op (o 2)));
   mkB "vptestmw" (fun v => let (o, a, r, n, e, s) := v in MnemonicAvx32.i_vptestmw (r 0) (r 1) (o 2))
     (fun v => let (o, a, r, n, e, s) := v in MnemonicAvx.i_vptestmw (r 0) (r 1) (widen_op (o 2)));
   mkB "vptestnmb" (fun v => let (o, a, r, n, e, s) := v in MnemonicAvx32.i_vptestnmb (r 0) (r 1) (o 2))
     (fun v => let (o, a, r, n, e, s) := v in MnemonicAvx.i_vptestnmb (r 0) (r 1) (widen_op (o 2)));
   mkB "vptestnmd" (fun v => let (o, a, r, n, e, s) := v in MnemonicAvx32.i_vptestnmd (r 0) (r 1) (o 2))
     (fun v => let (o, a, r, n, e, s) := v in MnemonicAvx.i_vptestnmd (r 0) (r 1) (widen_op (o 2)));
   mkB "vptestnmq" (fun v => let (o, a, r, n, e, s) := v in MnemonicAvx32.i_vptestnmq (r 0) (r 1) (o 2))
     (fun v => let (o, a, r, n, e, s) := v in MnemonicAvx.i_vptestnmq (r 0) (r 1) (widen_op (o 2)));
   mkB "vptestnmw" (fun v => let (o, a, r, n, e, s) := v in MnemonicAvx32.i_vptestnmw (r 0) (r 1) (o 2))
     (fun v => let (o, a, r, n, e, s) := v in MnemonicAvx.i_vptestnmw (r 0) (r 1) (widen_op (o 2)));
   mkB "vpxord" (fun v => let (o, a, r, n, e, s) := v in MnemonicAvx32.i_vpxord (r 0) (r 1) (o 2))
     (fun v => let (o, a, r, n, e, s) := v in MnemonicAvx.i_vpxord (r 0) (r 1) (widen_op (o 2)));
   mkB "vpxorq" (fun v => let (o, a, r, n, e, s) := v in MnemonicAvx32.i_vpxorq (r 0) (r 1) (o 2))
     (fun v => let (o, a, r, n, e, s) := v in MnemonicAvx.i_vpxorq (r 0) (r 1) (widen_op (o 2)));
   mkB "vrangepd" (fun v => let (o, a, r, n, e, s) := v in MnemonicAvx32.i_vrangepd (r 0) (r 1) (o 2) (n 3))
     (fun v => let (o, a, r, n, e, s) := v in MnemonicAvx.i_vrangepd (r 0) (r 1) (widen_op (o 2)) (n 3));
   mkB "vrangeps" (fun v => let (o, a, r, n, e, s) := v in MnemonicAvx32.i_vrangeps (r 0) (r 1) (o 2) (n 3))
     (fun v => let (o, a, r, n, e, s) := v in MnemonicAvx.i_vrangeps (r 0) (r 1) (widen_op (o 2)) (n 3));
   mkB "vrangesd" (fun v => let (o, a, r, n, e, s) := v in MnemonicAvx32.i_vrangesd (r 0) (r 1) (o 2) (n 3))
     (fun v => let (o, a, r, n, e, s) := v in MnemonicAvx.i_vrangesd (r 0) (r 1) (widen_op (o 2)) (n 3));
   mkB "vrangess" (fun v => let (o, a, r, n, e, s) := v in MnemonicAvx32.i_vrangess (r 0) (r 1) (o 2) (n 3))
     (fun v => let (o, a, r, n, e, s) := v in MnemonicAvx.i_vrangess (r 0) (r 1) (widen_op (o 2)) (n 3));
   mkB "vrcp14pd" (fun v => let (o, a, r, n, e, s) := v in MnemonicAvx32.i_vrcp14pd (r 0) (o 1))
     (fun v => let (o, a, r, n, e, s) := v in MnemonicAvx.i_vrcp14pd (r 0) (widen_op (o 1)));
   mkB "vrcp14ps" (fun v => let (o, a, r, n, e, s) := v in MnemonicAvx32.i_vrcp14ps (r 0) (o 1))
     (fun v => let (o, a, r, n, e, s) := v in MnemonicAvx.i_vrcp14ps (r 0) (widen_op (o 1)));
   mkB "vrcp14sd" (fun v => let (o, a, r, n, e, s) := v in MnemonicAvx32.i_vrcp14sd (r 0) (r 1) (o 2))
     (fun v => let (o, a, r, n, e, s) := v in MnemonicAvx.i_vrcp14sd (r 0) (r 1) (widen_op (o 2)));
   mkB "vrcp14ss" (fun v => let (o, a, r, n, e, s) := v in MnemonicAvx32.i_vrcp14ss (r 0) (r 1) (o 2))
     (fun v => let (o, a, r, n, e, s) := v in MnemonicAvx.i_vrcp14ss (r 0) (r 1) (widen_op (o 2)));
   mkB "vrcp28pd" (fun v => let (o, a, r, n, e, s) := v in MnemonicAvx32.i_vrcp28pd (r 0) (o 1))
     (fun v => let (o, a, r, n, e, s) := v in MnemonicAvx.i_vrcp28pd (r 0) (widen_op (o 1)));
   mkB "vrcp28ps" (fun v => let (o, a, r, n, e, s) := v in MnemonicAvx32.i_vrcp28ps (r 0) (o 1))
     (fun v => let (o, a, r, n, e, s) := v in MnemonicAvx.i_vrcp28ps (r 0) (widen_op (o 1)));
   mkB "vrcp28sd" (fun v => let (o, a, r, n, e, s) := v in MnemonicAvx32.i_vrcp28sd (r 0) (r 1) (o 2))
     (fun v => let (o, a, r, n, e, s) := v in MnemonicAvx.i_vrcp28sd (r 0) (r 1) (widen_op (o 2)));
   mkB "vrcp28ss" (fun v => let (o, a, r, n, e, s) := v in MnemonicAvx32.i_vrcp28ss (r 0) (r 1) (o 2))
     (fun v => let (o, a, r, n, e, s) := v in MnemonicAvx.i_vrcp28ss (r 0) (r 1) (widen_op (o 2)))].
Lemma sims75_ok : Forall same sims75.
Proof. unfold sims75.
row. { unfold MnemonicAvx32.i_vpsrlvw, MnemonicAvx.i_vpsrlvw. row_sim. }
row. { unfold MnemonicAvx32.i_vpternlogd, MnemonicAvx.i_vpternlogd. row_sim. }
row. { unfold MnemonicAvx32.i_vpternlogq, MnemonicAvx.i_vpternlogq. row_sim. }
row. { unfold MnemonicAvx32.i_vptestmb, MnemonicAvx.i_vptestmb. row_sim. }
row. { unfold MnemonicAvx32.i_vptestmd, MnemonicAvx.i_vptestmd. row_sim. }
row. { unfold MnemonicAvx32.i_vptestmq, MnemonicAvx.i_vptestmq. row_sim. }
row. { unfold MnemonicAvx32.i_vptestmw, MnemonicAvx.i_vptestmw. row_sim. }
row. { unfold MnemonicAvx32.i_vptestnmb, MnemonicAvx.i_vptestnmb. row_sim. }
row. { unfold MnemonicAvx32.i_vptestnmd, MnemonicAvx.i_vptestnmd. row_sim. }
row. { unfold MnemonicAvx32.i_vptestnmq, MnemonicAvx.i_vptestnmq. row_sim. }
row. { unfold MnemonicAvx32.i_vptestnmw, MnemonicAvx.i_vptestnmw. row_sim. }
row. { unfold MnemonicAvx32.i_vpxord, MnemonicAvx.i_vpxord. row_sim. }
row. { unfold MnemonicAvx32.i_vpxorq, MnemonicAvx.i_vpxorq. row_sim. }
row. { unfold MnemonicAvx32.i_vrangepd, MnemonicAvx.i_vrangepd. row_sim. }
row. { unfold MnemonicAvx32.i_vrangeps, MnemonicAvx.i_vrangeps. row_sim. }
row. { unfold MnemonicAvx32.i_vrangesd, MnemonicAvx.i_vrangesd. row_sim. }
row. { unfold MnemonicAvx32.i_vrangess, MnemonicAvx.i_vrangess. row_sim. }
row. { unfold MnemonicAvx32.i_vrcp14pd, MnemonicAvx.i_vrcp14pd. row_sim. }
row. { unfold MnemonicAvx32.i_vrcp14ps, MnemonicAvx.i_vrcp14ps. row_sim. }
row. { unfold MnemonicAvx32.i_vrcp14sd, MnemonicAvx.i_vrcp14sd. row_sim. }
row. { unfold MnemonicAvx32.i_vrcp14ss, MnemonicAvx.i_vrcp14ss. row_sim. }
row. { unfold MnemonicAvx32.i_vrcp28pd, MnemonicAvx.i_vrcp28pd. row_sim. }
row. { unfold MnemonicAvx32.i_vrcp28ps, MnemonicAvx.i_vrcp28ps. row_sim. }
row. { unfold MnemonicAvx32.i_vrcp28sd, MnemonicAvx.i_vrcp28sd. row_sim. }
row. { unfold MnemonicAvx32.i_vrcp28ss, MnemonicAvx.i_vrcp28ss. row_sim. }
apply Forall_nil. Qed.
Definition sims76 : list b_entry :=
  [mkB "vrcppbf16" (fun v => let (o, a, r, n, e, s) := v in MnemonicAvx32.i_vrcppbf16 (r 0) (o 1))
     (fun v => let (o, a, r, n, e, s) := v in MnemonicAvx.i_vrcppbf16 (r 0) (widen_op (o 1)));
   mkB "vrcpph" (fun v => let (o, a, r, n, e, s) := v in MnemonicAvx32.i_vrcpph (r 0) (o 1))
     (fun v => let (o, a, r, n, e, s) := v in MnemonicAvx.i_vrcpph (r 0) (widen_op (o 1)));
   mkB "vrcpsh" (fun v => let (o, a, r, n, e, s) := v in MnemonicAvx32.i_vrcpsh (r 0) (r 1) (o 2))
     (fun v => let (o, a, r, n, e, s) := v in MnemonicAvx.i_vrcpsh (r 0) (r 1) (widen_op (o 2)));
   mkB "vreducenepbf16" (fun v => let (o, a, r, n, e, s) := v in MnemonicAvx32.i_vreducenepbf16 (r 0) (o 1) (n 2))
     (fun v => let (o, a, r, n, e, s) := v in MnemonicAvx.i_vreducenepbf16 (r 0) (widen_op (o 1)) (n 2));
   mkB "vreducepd" (fun v => let (o, a, r, n, e, s) := v in MnemonicAvx32.i_vreducepd (r 0) (o 1) (n 2))
     (fun v => let (o, a, r, n, e, s) := v in MnemonicAvx.i_vreducepd (r 0) (widen_op (o 1)) (n 2));
   mkB "vreduceph" (fun v => let (o, a, r, n, e, s) := v in MnemonicAvx32.i_vreduceph (r 0) (o 1) (n 2))
     (fun v => let (o, a, r, n, e, s) := v in MnemonicAvx.i_vreduceph (r 0) (widen_op (o 1)) (n 2));
   mkB "vreduceps" (fun v => let (o, a, r, n, e, s) := v in MnemonicAvx32.i_vreduceps (r 0) (o 1) (n 2))
     (fun v => let (o, a, r, n, e, s) := v in MnemonicAvx.i_vreduceps (r 0) (widen_op (o 1)) (n 2));
   mkB "vreducesd" (fun v => let (o, a, r, n, e, s) := v in MnemonicAvx32.i_vreducesd (r 0) (r 1) (o 2) (n 3))
     (fun v => let (o, a, r, n, e, s) := v in MnemonicAvx.i_vreducesd (r 0) (r 1) (widen_op (o 2)) (n 3));
   mkB "vreducesh" (fun v => let (o, a, r, n, e, s) := v in MnemonicAvx32.i_vreducesh (r 0) (r 1) (o 2) (n 3))
     (fun v => let (o, a, r, n, e, s) := v in MnemonicAvx.i_vreducesh (r 0) (r 1) (widen_op (o 2)) (n 3));
   mkB "vreducess" (fun v => let (o, a, r, n, e, s) := v in MnemonicAvx32.i_vreducess (r 0) (r 1) (o 2) (n 3))
     (fun v => let (o, a, r, n, e, s) := v in MnemonicAvx.i_vreducess (r 0) (r 1) (widen_op (o 2)) (n 3));
   mkB "vrndscalenepbf16" (fun v => let (o, a, r, n, e, s) := v in MnemonicAvx32.i_vrndscalenepbf16 (r 0) (o 1) (n 2))
     (fun v => let (o, a, r, n, e, s) := v in MnemonicAvx.i_vrndscalenepbf16 (r 0) (widen_op (o 1)) (n 2));
   mkB "vrndscalepd" (fun v => let (o, a, r, n, e, s) := v in MnemonicAvx32.i_vrndscalepd (r 0) (o 1) (n 2))
     (fun v => let (o, a, r, n, e, s) := v in MnemonicAvx.i_vrndscalepd (r 0) (widen_op (o 1)) (n 2));
   mkB "vrndscaleph" (fun v => let (o, a, r, n, e, s) := v in MnemonicAvx32.i_vrndscaleph (r 0) (o 1) (n 2))
     (fun v => let (o, a, r, n, e, s) := v in MnemonicAvx.i_vrndscaleph (r 0) (widen_op (o 1)) (n 2));
   mkB "vrndscaleps" (fun v => let (o, a, r, n, e, s) := v in MnemonicAvx32.i_vrndscaleps (r 0) (o 1) (n 2))
     (fun v => let (o, a, r, n, e, s) := v in MnemonicAvx.i_vrndscaleps (r 0) (widen_op (o 1)) (n 2));
   mkB "vrndscalesd" (fun v => let (o, a, r, n, e, s) := v in MnemonicAvx32.i_vrndscalesd (r 0) (r 1) (o 2) (n 3))
     (fun v => let (o, a, r, n, e, s) := v in MnemonicAvx.i_vrndscalesd (r 0) (r 1) (widen_op (o 2)) (n 3));
   mkB "vrndscalesh" (fun v => let (o, a, r, n, e, s) := v in MnemonicAvx32.i_vrndscalesh (r 0) (r 1) (o 2) (n 3))
     (fun v => let (o, a, r, n, e, s) := v in MnemonicAvx.i_vrndscalesh (r 0) (r 1) (widen_op (o 2)) (n 3));
   mkB "vrndscaless" (fun v => let (o, a, r, n, e, s) := v in MnemonicAvx32.i_vrndscaless (r 0) (r 1) (o 2) (n 3))
     (fun v => let (o, a, r, n, e, s) := v in MnemonicAvx.i_vrndscaless (r 0) (r 1) (widen_op (o 2)) (n 3));
   mkB "vrsqrt14pd" (fun v => let (o, a, r, n, e, s) := v in MnemonicAvx32.i_vrsqrt14pd (r 0) (o 1))
     (fun v => let (o, a, r, n, e, s) := v in MnemonicAvx.i_vrsqrt14pd (r 0) (widen_op (o 1)));
   mkB "vrsqrt14ps" (fun v => let (o, a, r, n, e, s) := v in MnemonicAvx32.i_vrsqrt14ps (r 0) (o 1))
     (fun v => let (o, a, r, n, e, s) := v in MnemonicAvx.i_vrsqrt14ps (r 0) (widen_op (o 1)));
   mkB "vrsqrt14sd" (fun v => let (o, a, r, n, e, s) := v in MnemonicAvx32.i_vrsqrt14sd (r 0) (r 1) (o 2))
     (fun v => let (o, a, r, n, e, s) := v in MnemonicAvx.i_vrsqrt14sd (r 0) (r 1) (widen_op (o 2)));
   mkB "vrsqrt14ss" (fun v => let (o, a, r, n, e, s) := v in MnemonicAvx32.i_vrsqrt14ss (r 0) (r 1) (o 2))
     (fun v => let (o, a, r, n, e, s) := v in MnemonicAvx.i_vrsqrt14ss (r 0) (r 1) (widen_op (o 2)));
   mkB "vrsqrt28pd" (fun v => let (o, a, r, n, e, s) := v in MnemonicAvx32.i_vrsqrt28pd (r 0) (o 1))
     (fun v => let (o, a, r, n, e, s) := v in MnemonicAvx.i_vrsqrt28pd (r 0) (widen_op (o 1)));
   mkB "vrsqrt28ps" (fun v => let (o, a, r, n, e, s) := v in MnemonicAvx32.i_vrsqrt28ps (r 0) (o 1))
     (fun v => let (o, a, r, n, e, s) := v in MnemonicAvx.i_vrsqrt28ps (r 0) (widen_op (o 1)));
   mkB "vrsqrt28sd" (fun v => let (o, a, r, n, e, s) := v in MnemonicAvx32.i_vrsqrt28sd (r 0) (r 1) (o 2))
     (fun v => let (o, a, r, n, e, s) := v in MnemonicAvx.i_vrsqrt28sd (r 0) (r 1) (widen_op (o 2)));
   mkB "vrsqrt28ss" (fun v => let (o, a, r, n, e, s) := v in MnemonicAvx32.i_vrsqrt28ss (r 0) (r 1) (o 2))
     (fun v => let (o, a, r, n, e, s) := v in MnemonicAvx.i_vrsqrt28ss (r 0) (r 1) (widen_op (o 2)))].
Lemma sims76_ok : Forall same sims76.
Proof. unfold sims76.
row. { unfold MnemonicAvx32.i_vrcppbf16, MnemonicAvx.i_vrcppbf16. row_sim. }
row. { unfold MnemonicAvx32.i_vrcpph, MnemonicAvx.i_vrcpph. row_sim. }
row. { unfold MnemonicAvx32.i_vrcpsh, MnemonicAvx.i_vrcpsh. row_sim. }
row. { unfold MnemonicAvx32.i_vreducenepbf16, MnemonicAvx.i_vreducenepbf16. row_sim. }
row. { unfold MnemonicAvx32.i_vreducepd, MnemonicAvx.i_vreducepd. row_sim. }
row. { unfold MnemonicAvx32.i_vreduceph, MnemonicAvx.i_vreduceph. row_sim. }
row. { unfold MnemonicAvx32.i_vreduceps, MnemonicAvx.i_vreduceps. row_sim. }
row. { unfold MnemonicAvx32.i_vreducesd, MnemonicAvx.i_vreducesd. row_sim. }
row. { unfold MnemonicAvx32.i_vreducesh, MnemonicAvx.i_vreducesh. row_sim. }
row. { unfold MnemonicAvx32.i_vreducess, MnemonicAvx.i_vreducess. row_sim. }
row. { unfold MnemonicAvx32.i_vrndscalenepbf16, MnemonicAvx.i_vrndscalenepbf16. row_sim. }
row. { unfold MnemonicAvx32.i_vrndscalepd, MnemonicAvx.i_vrndscalepd. row_sim. }
row. { unfold MnemonicAvx32.i_vrndscaleph, MnemonicAvx.i_vrndscaleph. row_sim. }
row. { unfold MnemonicAvx32.i_vrndscaleps, MnemonicAvx.i_vrndscaleps. row_sim. }
row. { unfold MnemonicAvx32.i_vrndscalesd, MnemonicAvx.i_vrndscalesd. row_sim. }
row. { unfold MnemonicAvx32.i_vrndscalesh, MnemonicAvx.i_vrndscalesh. row_sim. }
row. { unfold MnemonicAvx32.i_vrndscaless, MnemonicAvx.i_vrndscaless. row_sim. }
row. { unfold MnemonicAvx32.i_vrsqrt14pd, MnemonicAvx.i_vrsqrt14pd. row_sim. }
row. { unfold MnemonicAvx32.i_vrsqrt14ps, MnemonicAvx.i_vrsqrt14ps. row_sim. }
row. { unfold MnemonicAvx32.i_vrsqrt14sd, MnemonicAvx.i_vrsqrt14sd. row_sim. }
row. { unfold MnemonicAvx32.i_vrsqrt14ss, MnemonicAvx.i_vrsqrt14ss. row_sim. }
row. { unfold MnemonicAvx32.i_vrsqrt28pd, MnemonicAvx.i_vrsqrt28pd. row_sim. }
row. { unfold MnemonicAvx32.i_vrsqrt28ps, MnemonicAvx.i_vrsqrt28ps. row_sim. }
row. { unfold MnemonicAvx32.i_vrsqrt28sd, MnemonicAvx.i_vrsqrt28sd. row_sim. }
row. { unfold MnemonicAvx32.i_vrsqrt28ss, MnemonicAvx.i_vrsqrt28ss. row_sim. }
apply Forall_nil. Qed.
Definition sims77 : list b_entry :=
  [mkB "vrsqrtpbf16" (fun v => let (o, a, r, n, e, s) := v in MnemonicAvx32.i_vrsqrtpbf16 (r 0) (o 1))
     (fun v => let (o, a, r, n, e, s) := v in MnemonicAvx.i_vrsqrtpbf16 (r 0) (widen_op (o 1)));
   mkB "vrsqrtph" (fun v => let (o, a, r, n, e, s) := v in MnemonicAvx32.i_vrsqrtph (r 0) (o 1))
     (fun v => let (o, a, r, n, e, s) := v in MnemonicAvx.i_vrsqrtph (r 0) (widen_op (o 1)));
   mkB "vrsqrtsh" (fun v => let (o, a, r, n, e, s) := v in MnemonicAvx32.i_vrsqrtsh (r 0) (r 1) (o 2))
     (fun v => let (o, a, r, n, e, s) := v in MnemonicAvx.i_vrsqrtsh (r 0) (r 1) (widen_op (o 2)));
   mkB "vscalefpbf16_xo" (fun v => let (o, a, r, n, e, s) := v in MnemonicAvx32.i_vscalefpbf16_xo (r 0) (o 1))
     (fun v => let (o, a, r, n, e, s) := v in MnemonicAvx.i_vscalefpbf16_xo (r 0) (widen_op (o 1)));
   mkB "vscalefpbf16_xxo" (fun v => let (o, a, r, n, e, s) := v in MnemonicAvx32.i_vscalefpbf16_xxo (r 0) (r 1) (o 2))
     (fun v => let (o, a, r, n, e, s) := v in MnemonicAvx.i_vscalefpbf16_xxo (r 0) (r 1) (widen_op (o 2)));
   mkB "vscalefpd" (fun v => let (o, a, r, n, e, s) := v in MnemonicAvx32.i_vscalefpd (r 0) (r 1) (o 2))
     (fun v => let (o, a, r, n, e, s) := v in MnemonicAvx.i_vscalefpd (r 0) (r 1) (widen_op (o 2)));
   mkB "vscalefph" (fun v => let (o, a, r, n, e, s) := v in MnemonicAvx32.i_vscalefph (r 0) (r 1) (o 2))
     (fun v => let (o, a, r, n, e, s) := v in MnemonicAvx.i_vscalefph (r 0) (r 1) (widen_op (o 2)));
   mkB "vscalefps" (fun v => let (o, a, r, n, e, s) := v in MnemonicAvx32.i_vscalefps (r 0) (r 1) (o 2))
     (fun v => let (o, a, r, n, e, s) := v in MnemonicAvx.i_vscalefps (r 0) (r 1) (widen_op (o 2)));
   mkB "vscalefsd" (fun v => let (o, a, r, n, e, s) := v in MnemonicAvx32.i_vscalefsd (r 0) (r 1) (o 2))
     (fun v => let (o, a, r, n, e, s) := v in MnemonicAvx.i_vscalefsd (r 0) (r 1) (widen_op (o 2)));
   mkB "vscalefsh" (fun v => let (o, a, r, n, e, s) := v in MnemonicAvx32.i_vscalefsh (r 0) (r 1) (o 2))
     (fun v => let (o, a, r, n, e, s) := v in MnemonicAvx.i_vscalefsh (r 0) (r 1) (widen_op (o 2)));
   mkB "vscalefss" (fun v => let (o, a, r, n, e, s) := v in MnemonicAvx32.i_vscalefss (r 0) (r 1) (o 2))
     (fun v => let (o, a, r, n, e, s) := v in MnemonicAvx.i_vscalefss (r 0) (r 1) (widen_op (o 2)));
   mkB "vscatterdpd" (fun v => let (o, a, r, n, e, s) := v in MnemonicAvx32.i_vscatterdpd (a 0) (r 1))
     (fun v => let (o, a, r, n, e, s) := v in MnemonicAvx.i_vscatterdpd (widen_addr (a 0)) (r 1));
   mkB "vscatterdps" (fun v => let (o, a, r, n, e, s) := v in MnemonicAvx32.i_vscatterdps (a 0) (r 1))
     (fun v => let (o, a, r, n, e, s) := v in MnemonicAvx.i_vscatterdps (widen_addr (a 0)) (r 1));
   mkB "vscatterpf0dpd" (fun v => let (o, a, r, n, e, s) := v in MnemonicAvx32.i_vscatterpf0dpd (a 0))
     (fun v => let (o, a, r, n, e, s) := v in MnemonicAvx.i_vscatterpf0dpd (widen_addr (a 0)));
   mkB "vscatterpf0dps" (fun v => let (o, a, r, n, e, s) := v in MnemonicAvx32.i_vscatterpf0dps (a 0))
     (fun v => let (o, a, r, n, e, s) := v in MnemonicAvx.i_vscatterpf0dps (widen_addr (a 0)));
   mkB "vscatterpf0qpd" (fun v => let (o, a, r, n, e, s) := v in MnemonicAvx32.i_vscatterpf0qpd (a 0))
     (fun v => let (o, a, r, n, e, s) := v in MnemonicAvx.i_vscatterpf0qpd (widen_addr (a 0)));
   mkB "vscatterpf0qps" (fun v => let (o, a, r, n, e, s) := v in MnemonicAvx32.i_vscatterpf0qps (a 0))
     (fun v => let (o, a, r, n, e, s) := v in MnemonicAvx.i_vscatterpf0qps (widen_addr (a 0)));
   mkB "vscatterpf1dpd" (fun v => let (o, a, r, n, e, s) := v in MnemonicAvx32.i_vscatterpf1dpd (a 0))
     (fun v => let (o, a, r, n, e, s) := v in MnemonicAvx.i_vscatterpf1dpd (widen_addr (a 0)));
   mkB "vscatterpf1dps" (fun v => let (o, a, r, n, e, s) := v in MnemonicAvx32.i_vscatterpf1dps (a 0))
     (fun v => let (o, a, r, n, e, s) := v in MnemonicAvx.i_vscatterpf1dps (widen_addr (a 0)));
   mkB "vscatterpf1qpd" (fun v => let (o, a, r, n, e, s) := v in MnemonicAvx32.i_vscatterpf1qpd (a 0))
     (fun v => let (o, a, r, n, e, s) := v in MnemonicAvx.i_vscatterpf1qpd (widen_addr (a 0)));
   mkB "vscatterpf1qps" (fun v => let (o, a, r, n, e, s) := v in MnemonicAvx32.i_vscatterpf1qps (a 0))
     (fun v => let (o, a, r, n, e, s) := v in MnemonicAvx.i_vscatterpf1qps (widen_addr (a 0)));
   mkB "vscatterqpd" (fun v => let (o, a, r, n, e, s) := v in MnemonicAvx32.i_vscatterqpd (a 0) (r 1))
     (fun v => let (o, a, r, n, e, s) := v in MnemonicAvx.i_vscatterqpd (widen_addr (a 0)) (r 1));
   mkB "vscatterqps" (fun v => let (o, a, r, n, e, s) := v in MnemonicAvx32.i_vscatterqps (a 0) (r 1))
     (fun v => let (o, a, r, n, e, s) := v in MnemonicAvx.i_vscatterqps (widen_addr (a 0)) (r 1));
   mkB "vshuff32x4" (fun v => let (o, a, r, n, e, s) := v in MnemonicAvx32.i_vshuff32x4 (r 0) (r 1) (o 2) (n 3))
     (fun v => let (o, a, r, n, e, s) := v in MnemonicAvx.i_vshuff32x4 (r 0) (r 1) (widen_op (o 2)) (n 3));
   mkB "vshuff64x2" (fun v => let (o, a, r, n, e, s) := v in MnemonicAvx32.i_vshuff64x2 (r 0) (r 1) (o 2) (n 3))
     (fun v => let (o, a, r, n, e, s) := v in MnemonicAvx.i_vshuff64x2 (r 0) (r 1) (widen_op (o 2)) (n 3))].
Lemma sims77_ok : Forall same sims77.
Proof. unfold sims77.
row. { unfold MnemonicAvx32.i_vrsqrtpbf16, MnemonicAvx.i_vrsqrtpbf16. row_sim. }
row. { unfold MnemonicAvx32.i_vrsqrtph, MnemonicAvx.i_vrsqrtph. row_sim. }
row. { unfold MnemonicAvx32.i_vrsqrtsh, MnemonicAvx.i_vrsqrtsh. row_sim. }
row. { unfold MnemonicAvx32.i_vscalefpbf16_xo, MnemonicAvx.i_vscalefpbf16_xo. row_sim. }
row. { unfold MnemonicAvx32.i_vscalefpbf16_xxo, MnemonicAvx.i_vscalefpbf16_xxo. row_sim. }
row. { unfold MnemonicAvx32.i_vscalefpd, MnemonicAvx.i_vscalefpd. row_sim. }
row. { unfold MnemonicAvx32.i_vscalefph, MnemonicAvx.i_vscalefph. row_sim. }
row. { unfold MnemonicAvx32.i_vscalefps, MnemonicAvx.i_vscalefps. row_sim. }
row. { unfold MnemonicAvx32.i_vscalefsd, MnemonicAvx.i_vscalefsd. row_sim. }
row. { unfold MnemonicAvx32.i_vscalefsh, MnemonicAvx.i_vscalefsh. row_sim. }
row. { unfold MnemonicAvx32.i_vscalefss, MnemonicAvx.i_vscalefss. row_sim. }
row. { unfold MnemonicAvx32.i_vscatterdpd, MnemonicAvx.i_vscatterdpd. row_sim. }
row. { unfold MnemonicAvx32.i_vscatterdps, MnemonicAvx.i_vscatterdps. row_sim. }
row. { unfold MnemonicAvx32.i_vscatterpf0dpd, MnemonicAvx.i_vscatterpf0dpd. row_sim. }
row. { unfold MnemonicAvx32.i_vscatterpf0dps, MnemonicAvx.i_vscatterpf0dps. row_sim. }
row. { unfold MnemonicAvx32.i_vscatterpf0qpd, MnemonicAvx.i_vscatterpf0qpd. row_sim. }
row. { unfold MnemonicAvx32.i_vscatterpf0qps, MnemonicAvx.i_vscatterpf0qps. row_sim. }
row. { unfold MnemonicAvx32.i_vscatterpf1dpd, MnemonicAvx.i_vscatterpf1dpd. row_sim. }
row. { unfold MnemonicAvx32.i_vscatterpf1dps, MnemonicAvx.i_vscatterpf1dps. row_sim. }
row. { unfold MnemonicAvx32.i_vscatterpf1qpd, MnemonicAvx.i_vscatterpf1qpd. row_sim. }
row. { unfold MnemonicAvx32.i_vscatterpf1qps, MnemonicAvx.i_vscatterpf1qps. row_sim. }
row. { unfold MnemonicAvx32.i_vscatterqpd, MnemonicAvx.i_vscatterqpd. row_sim. }
row. { unfold MnemonicAvx32.i_vscatterqps, MnemonicAvx.i_vscatterqps. row_sim. }
row. { unfold MnemonicAvx32.i_vshuff32x4, MnemonicAvx.i_vshuff32x4. row_sim. }
row. { unfold MnemonicAvx32.i_vshuff64x2, MnemonicAvx.i_vshuff64x2. row_sim. }
apply Forall_nil. Qed.
Definition sims78 : list b_entry :=
  [mkB "vshufi32x4" (fun v => let (o, a, r, n, e, s) := v in MnemonicAvx32.i_vshufi32x4 (r 0) (r 1) (o 2) (n 3))
     (fun v => let (o, a, r, n, e, s) := v in MnemonicAvx.i_vshufi32x4 (r 0) (r 1) (widen_op (o 2)) (n 3));
   mkB "vshufi64x2" (fun v => let (o, a, r, n, e, s) := v in MnemonicAvx32.i_vshufi64x2 (r 0) (r 1) (o 2) (n 3))
     (fun v => let (o, a, r, n, e, s) := v in MnemonicAvx.i_vshufi64x2 (r 0) (r 1) (widen_op (o 2)) (n 3));
   mkB "vsqrtnepbf16" (fun v => let (o, a, r, n, e, s) := v in MnemonicAvx32.i_vsqrtnepbf16 (r 0) (o 1))
     (fun v => let (o, a, r, n, e, s) := v in MnemonicAvx.i_vsqrtnepbf16 (r 0) (widen_op (o 1)));
   mkB "vsqrtph" (fun v => let (o, a, r, n, e, s) := v in MnemonicAvx32.i_vsqrtph (r 0) (o 1))
     (fun v => let (o, a, r, n, e, s) := v in MnemonicAvx.i_vsqrtph (r 0) (widen_op (o 1)));
   mkB "vsqrtsh" (fun v => let (o, a, r, n, e, s) := v in MnemonicAvx32.i_vsqrtsh (r 0) (r 1) (o 2))
     (fun v => let (o, a, r, n, e, s) := v in MnemonicAvx.i_vsqrtsh (r 0) (r 1) (widen_op (o 2)));
   mkB "vsubnepbf16" (fun v => let (o, a, r, n, e, s) := v in MnemonicAvx32.i_vsubnepbf16 (r 0) (r 1) (o 2))
     (fun v => let (o, a, r, n, e, s) := v in MnemonicAvx.i_vsubnepbf16 (r 0) (r 1) (widen_op (o 2)));
   mkB "vsubph" (fun v => let (o, a, r, n, e, s) := v in MnemonicAvx32.i_vsubph (r 0) (o 1) (o 2))
     (fun v => let (o, a, r, n, e, s) := v in MnemonicAvx.i_vsubph (r 0) (widen_op (o 1)) (widen_op (o 2)));
   mkB "vsubsh" (fun v => let (o, a, r, n, e, s) := v in MnemonicAvx32.i_vsubsh (r 0) (o 1) (o 2))
     (fun v => let (o, a, r, n, e, s) := v in MnemonicAvx.i_vsubsh (r 0) (widen_op (o 1)) (widen_op (o 2)));
   mkB "vucomish" (fun v => let (o, a, r, n, e, s) := v in MnemonicAvx32.i_vucomish (r 0) (o 1))
     (fun v => let (o, a, r, n, e, s) := v in MnemonicAvx.i_vucomish (r 0) (widen_op (o 1)));
   mkB "vucomxsd" (fun v => let (o, a, r, n, e, s) := v in MnemonicAvx32.i_vucomxsd (r 0) (o 1))
     (fun v => let (o, a, r, n, e, s) := v in MnemonicAvx.i_vucomxsd (r 0) (widen_op (o 1)));
   mkB "vucomxsh" (fun v => let (o, a, r, n, e, s) := v in MnemonicAvx32.i_vucomxsh (r 0) (o 1))
     (fun v => let (o, a, r, n, e, s) := v in MnemonicAvx.i_vucomxsh (r 0) (widen_op (o 1)));
   mkB "vucomxss" (fun v => let (o, a, r, n, e, s) := v in MnemonicAvx32.i_vucomxss (r 0) (o 1))
     (fun v => let (o, a, r, n, e, s) := v in MnemonicAvx.i_vucomxss (r 0) (widen_op (o 1)));
   mkB "vblendpd_xoi" (fun v => let (o, a, r, n, e, s) := v in MnemonicOmit32.i_vblendpd_xoi (r 0) (o 1) (n 2))
     (fun v => let (o, a, r, n, e, s) := v in MnemonicOmit.i_vblendpd_xoi (r 0) (widen_op (o 1)) (n 2));
   mkB "vblendps_xoi" (fun v => let (o, a, r, n, e, s) := v in MnemonicOmit32.i_vblendps_xoi (r 0) (o 1) (n 2))
     (fun v => let (o, a, r, n, e, s) := v in MnemonicOmit.i_vblendps_xoi (r 0) (widen_op (o 1)) (n 2));
   mkB "vblendvpd_xox" (fun v => let (o, a, r, n, e, s) := v in MnemonicOmit32.i_vblendvpd_xox (r 0) (o 1) (r 2))
     (fun v => let (o, a, r, n, e, s) := v in MnemonicOmit.i_vblendvpd_xox (r 0) (widen_op (o 1)) (r 2));
   mkB "vblendvps_xox" (fun v => let (o, a, r, n, e, s) := v in MnemonicOmit32.i_vblendvps_xox (r 0) (o 1) (r 2))
     (fun v => let (o, a, r, n, e, s) := v in MnemonicOmit.i_vblendvps_xox (r 0) (widen_op (o 1)) (r 2));
   mkB "vcmpeq_ospd_xo" (fun v => let (o, a, r, n, e, s) := v in MnemonicOmit32.i_vcmpeq_ospd_xo (r 0) (o 1))
     (fun v => let (o, a, r, n, e, s) := v in MnemonicOmit.i_vcmpeq_ospd_xo (r 0) (widen_op (o 1)));
   mkB "vcmpeq_osps_xo" (fun v => let (o, a, r, n, e, s) := v in MnemonicOmit32.i_vcmpeq_osps_xo (r 0) (o 1))
     (fun v => let (o, a, r, n, e, s) := v in MnemonicOmit.i_vcmpeq_osps_xo (r 0) (widen_op (o 1)));
   mkB "vcmpeq_ossd_xo" (fun v => let (o, a, r, n, e, s) := v in MnemonicOmit32.i_vcmpeq_ossd_xo (r 0) (o 1))
     (fun v => let (o, a, r, n, e, s) := v in MnemonicOmit.i_vcmpeq_ossd_xo (r 0) (widen_op (o 1)));
   mkB "vcmpeq_osss_xo" (fun v => let (o, a, r, n, e, s) := v in MnemonicOmit32.i_vcmpeq_osss_xo (r 0) (o 1))
     (fun v => let (o, a, r, n, e, s) := v in MnemonicOmit.i_vcmpeq_osss_xo (r 0) (widen_op (o 1)));
   mkB "vcmpeq_uqpd_xo" (fun v => let (o, a, r, n, e, s) := v in MnemonicOmit32.i_vcmpeq_uqpd_xo (r 0) (o 1))
     (fun v => let (o, a, r, n, e, s) := v in MnemonicOmit.i_vcmpeq_uqpd_xo (r 0) (widen_op (o 1)));
   mkB "vcmpeq_uqps_xo" (fun v => let (o, a, r, n, e, s) := v in MnemonicOmit32.i_vcmpeq_uqps_xo (r 0) (o 1))
     (fun v => let (o, a, r, n, e, s) := v in MnemonicOmit.i_vcmpeq_uqps_xo (r 0) (widen_op (o 1)));
   mkB "vcmpeq_uqsd_xo" (fun v => let (o, a, r, n, e, s) := v in MnemonicOmit32.i_vcmpeq_uqsd_xo (r 0) (o 1))
     (fun v => let (o, a, r, n, e, s) := v in MnemonicOmit.i_vcmpeq_uqsd_xo (r 0) (widen_op (o 1)));
   mkB "vcmpeq_uqss_xo" (fun v => let (o, a, r, n, e, s) := v in MnemonicOmit32.i_vcmpeq_uqss_xo (r 0) (o 1))
     (fun v => let (o, a, r, n, e, s) := v in MnemonicOmit.i_vcmpeq_uqss_xo (r 0) (widen_op (o 1)));
   mkB "vcmpeq_uspd_xo" (fun v => let (o, a, r, n, e, s) := v in MnemonicOmit32.i_vcmpeq_uspd_xo (r 0) (o 1))
     (fun v => let (o, a, r, n, e, s) := v in MnemonicOmit.i_vcmpeq_uspd_xo (r 0) (widen_op (o 1)))].
Lemma sims78_ok : Forall same sims78.
Proof. unfold sims78.
row. { unfold MnemonicAvx32.i_vshufi32x4, MnemonicAvx.i_vshufi32x4. row_sim. }
row. { unfold MnemonicAvx32.i_vshufi64x2, MnemonicAvx.i_vshufi64x2. row_sim. }
row. { unfold MnemonicAvx32.i_vsqrtnepbf16, MnemonicAvx.i_vsqrtnepbf16. row_sim. }
row. { unfold MnemonicAvx32.i_vsqrtph, MnemonicAvx.i_vsqrtph. row_sim. }
row. { unfold MnemonicAvx32.i_vsqrtsh, MnemonicAvx.i_vsqrtsh. row_sim. }
row. { unfold MnemonicAvx32.i_vsubnepbf16, MnemonicAvx.i_vsubnepbf16. row_sim. }
row. { unfold MnemonicAvx32.i_vsubph, MnemonicAvx.i_vsubph. row_sim. }
row. { unfold MnemonicAvx32.i_vsubsh, MnemonicAvx.i_vsubsh. row_sim. }
row. { unfold MnemonicAvx32.i_vucomish, MnemonicAvx.i_vucomish. row_sim. }
row. { unfold MnemonicAvx32.i_vucomxsd, MnemonicAvx.i_vucomxsd. row_sim. }
row. { unfold MnemonicAvx32.i_vucomxsh, MnemonicAvx.i_vucomxsh. row_sim. }
row. { unfold MnemonicAvx32.i_vucomxss, MnemonicAvx.i_vucomxss. row_sim. }
row. { unfold MnemonicOmit32.i_vblendpd_xoi, Mnemonic32.i_vblendpd_xxoi, MnemonicOmit.i_vblendpd_xoi, Mnemonic.i_vblendpd_xxoi. row_sim. }
row. { unfold MnemonicOmit32.i_vblendps_xoi, Mnemonic32.i_vblendps_xxoi, MnemonicOmit.i_vblendps_xoi, Mnemonic.i_vblendps_xxoi. row_sim. }
row. { unfold MnemonicOmit32.i_vblendvpd_xox, Mnemonic32.i_vblendvpd_xxox, MnemonicOmit.i_vblendvpd_xox, Mnemonic.i_vblendvpd_xxox. row_sim. }
row. { unfold MnemonicOmit32.i_vblendvps_xox, Mnemonic32.i_vblendvps_xxox, MnemonicOmit.i_vblendvps_xox, Mnemonic.i_vblendvps_xxox. row_sim. }
row. { unfold MnemonicOmit32.i_vcmpeq_ospd_xo, Mnemonic32.i_vcmpeq_ospd_xxo, Mnemonic32.i_vcmppd_xxoi, MnemonicOmit.i_vcmpeq_ospd_xo, Mnemonic.i_vcmpeq_ospd_xxo, Mnemonic.i_vcmppd_xxoi. row_sim. }
row. { unfold MnemonicOmit32.i_vcmpeq_osps_xo, Mnemonic32.i_vcmpeq_osps_xxo, Mnemonic32.i_vcmpps_xxoi, MnemonicOmit.i_vcmpeq_osps_xo, Mnemonic.i_vcmpeq_osps_xxo, Mnemonic.i_vcmpps_xxoi. row_sim. }
row. { unfold MnemonicOmit32.i_vcmpeq_ossd_xo, Mnemonic32.i_vcmpeq_ossd_xxo, Mnemonic32.i_vcmpsd_xxoi, MnemonicOmit.i_vcmpeq_ossd_xo, Mnemonic.i_vcmpeq_ossd_xxo, Mnemonic.i_vcmpsd_xxoi. row_sim. }
row. { unfold MnemonicOmit32.i_vcmpeq_osss_xo, Mnemonic32.i_vcmpeq_osss_xxo, Mnemonic32.i_vcmpss_xxoi, MnemonicOmit.i_vcmpeq_osss_xo, Mnemonic.i_vcmpeq_osss_xxo, Mnemonic.i_vcmpss_xxoi. row_sim. }
row. { unfold MnemonicOmit32.i_vcmpeq_uqpd_xo, Mnemonic32.i_vcmpeq_uqpd_xxo, Mnemonic32.i_vcmppd_xxoi, MnemonicOmit.i_vcmpeq_uqpd_xo, Mnemonic.i_vcmpeq_uqpd_xxo, Mnemonic.i_vcmppd_xxoi. row_sim. }
row. { unfold MnemonicOmit32.i_vcmpeq_uqps_xo, Mnemonic32.i_vcmpeq_uqps_xxo, Mnemonic32.i_vcmpps_xxoi, MnemonicOmit.i_vcmpeq_uqps_xo, Mnemonic.i_vcmpeq_uqps_xxo, Mnemonic.i_vcmpps_xxoi. row_sim. }
row. { unfold MnemonicOmit32.i_vcmpeq_uqsd_xo, Mnemonic32.i_vcmpeq_uqsd_xxo, Mnemonic32.i_vcmpsd_xxoi, MnemonicOmit.i_vcmpeq_uqsd_xo, Mnemonic.i_vcmpeq_uqsd_xxo, Mnemonic.i_vcmpsd_xxoi. row_sim. }
row. { unfold MnemonicOmit32.i_vcmpeq_uqss_xo, Mnemonic32.i_vcmpeq_uqss_xxo, Mnemonic32.i_vcmpss_xxoi, MnemonicOmit.i_vcmpeq_uqss_xo, Mnemonic.i_vcmpeq_uqss_xxo, Mnemonic.i_vcmpss_xxoi. row_sim. }
row. { unfold MnemonicOmit32.i_vcmpeq_uspd_xo, Mnemonic32.i_vcmpeq_uspd_xxo, Mnemonic32.i_vcmppd_xxoi, MnemonicOmit.i_vcmpeq_uspd_xo, Mnemonic.i_vcmpeq_uspd_xxo, Mnemonic.i_vcmppd_xxoi. row_sim. }
apply Forall_nil. Qed.
Definition sims79 : list b_entry :=
  [mkB "vcmpeq_usps_xo" (fun v => let (o, a, r, n, e, s) := v in MnemonicOmit32.i_vcmpeq_usps_xo (r 0) (o 1))
     (fun v => let (o, a, r, n, e, s) := v in MnemonicOmit.i_vcmpeq_usps_xo (r 0) (widen_op (o 1)));
   mkB "vcmpeq_ussd_xo" (fun v => let (o, a, r, n, e, s) := v in MnemonicOmit32.i_vcmpeq_ussd_xo (r 0) (o 1))
     (fun v => let (o, a, r, n, e, s) := v in MnemonicOmit.i_vcmpeq_ussd_xo (r 0) (widen_op (o 1)));
   mkB "vcmpeq_usss_xo" (fun v => let (o, a, r, n, e, s) := v in MnemonicOmit32.i_vcmpeq_usss_xo (r 0) (o 1))
     (fun v => let (o, a, r, n, e, s) := v in MnemonicOmit.i_vcmpeq_usss_xo (r 0) (widen_op (o 1)));
   mkB "vcmpeqpd_xo" (fun v => let (o, a, r, n, e, s) := v in MnemonicOmit32.i_vcmpeqpd_xo (r 0) (o 1))
     (fun v => let (o, a, r, n, e, s) := v in MnemonicOmit.i_vcmpeqpd_xo (r 0) (widen_op (o 1)));
   mkB "vcmpeqps_xo" (fun v => let (o, a, r, n, e, s) := v in MnemonicOmit32.i_vcmpeqps_xo (r 0) (o 1))
     (fun v => let (o, a, r, n, e, s) := v in MnemonicOmit.i_vcmpeqps_xo (r 0) (widen_op (o 1)));
   mkB "vcmpeqsd_xo" (fun v => let (o, a, r, n, e, s) := v in MnemonicOmit32.i_vcmpeqsd_xo (r 0) (o 1))
     (fun v => let (o, a, r, n, e, s) := v in MnemonicOmit.i_vcmpeqsd_xo (r 0) (widen_op (o 1)));
   mkB "vcmpeqss_xo" (fun v => let (o, a, r, n, e, s) := v in MnemonicOmit32.i_vcmpeqss_xo (r 0) (o 1))
     (fun v => let (o, a, r, n, e, s) := v in MnemonicOmit.i_vcmpeqss_xo (r 0) (widen_op (o 1)));
   mkB "vcmpfalse_ospd_xo" (fun v => let (o, a, r, n, e, s) := v in MnemonicOmit32.i_vcmpfalse_ospd_xo (r 0) (o 1))
     (fun v => let (o, a, r, n, e, s) := v in MnemonicOmit.i_vcmpfalse_ospd_xo (r 0) (widen_op (o 1)));
   mkB "vcmpfalse_osps_xo" (fun v => let (o, a, r, n, e, s) := v in MnemonicOmit32.i_vcmpfalse_osps_xo (r 0) (o 1))
     (fun v => let (o, a, r, n, e, s) := v in MnemonicOmit.i_vcmpfalse_osps_xo (r 0) (widen_op (o 1)));
   mkB "vcmpfalse_ossd_xo" (fun v => let (o, a, r, n, e, s) := v in MnemonicOmit32.i_vcmpfalse_ossd_xo (r 0) (o 1))
     (fun v => let (o, a, r, n, e, s) := v in MnemonicOmit.i_vcmpfalse_ossd_xo (r 0) (widen_op (o 1)));
   mkB "vcmpfalse_osss_xo" (fun v => let (o, a, r, n, e, s) := v in MnemonicOmit32.i_vcmpfalse_osss_xo (r 0) (o 1))
     (fun v => let (o, a, r, n, e, s) := v in MnemonicOmit.i_vcmpfalse_osss_xo (r 0) (widen_op (o 1)));
   mkB "vcmpfalsepd_xo" (fun v => let (o, a, r, n, e, s) := v in MnemonicOmit32.i_vcmpfalsepd_xo (r 0) (o 1))
     (fun v => let (o, a, r, n, e, s) := v in MnemonicOmit.i_vcmpfalsepd_xo (r 0) (widen_op (o 1)));
   mkB "vcmpfalseps_xo" (fun v => let (o, a, r, n, e, s) := v in MnemonicOmit32.i_vcmpfalseps_xo (r 0) (o 1))
     (fun v => let (o, a, r, n, e, s) := v in MnemonicOmit.i_vcmpfalseps_xo (r 0) (widen_op (o 1)));
   mkB "vcmpfalsesd_xo" (fun v => let (o, a, r, n, e, s) := v in MnemonicOmit32.i_vcmpfalsesd_xo (r 0) (o 1))
     (fun v => let (o, a, r, n, e, s) := v in MnemonicOmit.i_vcmpfalsesd_xo (r 0) (widen_op (o 1)));
   mkB "vcmpfalsess_xo" (fun v => let (o, a, r, n, e, s) := v in MnemonicOmit32.i_vcmpfalsess_xo (r 0) (o 1))
     (fun v => let (o, a, r, n, e, s) := v in MnemonicOmit.i_vcmpfalsess_xo (r 0) (widen_op (o 1)));
   mkB "vcmpge_oqpd_xo" (fun v => let (o, a, r, n, e, s) := v in MnemonicOmit32.i_vcmpge_oqpd_xo (r 0) (o 1))
     (fun v => let (o, a, r, n, e, s) := v in MnemonicOmit.i_vcmpge_oqpd_xo (r 0) (widen_op (o 1)));
   mkB "vcmpge_oqps_xo" (fun v => let (o, a, r, n, e, s) := v in MnemonicOmit32.i_vcmpge_oqps_xo (r 0) (o 1))
     (fun v => let (o, a, r, n, e, s) := v in MnemonicOmit.i_vcmpge_oqps_xo (r 0) (widen_op (o 1)));
   mkB "vcmpge_oqsd_xo" (fun v => let (o, a, r, n, e, s) := v in MnemonicOmit32.i_vcmpge_oqsd_xo (r 0) (o 1))
     (fun v => let (o, a, r, n, e, s) := v in MnemonicOmit.i_vcmpge_oqsd_xo (r 0) (widen_op (o 1)));
   mkB "vcmpge_oqss_xo" (fun v => let (o, a, r, n, e, s) := v in MnemonicOmit32.i_vcmpge_oqss_xo (r 0) (o 1))
     (fun v => let (o, a, r, n, e, s) := v in MnemonicOmit.i_vcmpge_oqss_xo (r 0) (widen_op (o 1)));
   mkB "vcmpgepd_xo" (fun v => let (o, a, r, n, e, s) := v in MnemonicOmit32.i_vcmpgepd_xo (r 0) (o 1))
     (fun v => let (o, a, r, n, e, s) := v in MnemonicOmit.i_vcmpgepd_xo (r 0) (widen_op (o 1)));
   mkB "vcmpgeps_xo" (fun v => let (o, a, r, n, e, s) := v in MnemonicOmit32.i_vcmpgeps_xo (r 0) (o 1))
     (fun v => let (o, a, r, n, e, s) := v in MnemonicOmit.i_vcmpgeps_xo (r 0) (widen_op (o 1)));
   mkB "vcmpgesd_xo" (fun v => let (o, a, r, n, e, s) := v in MnemonicOmit32.i_vcmpgesd_xo (r 0) (o 1))
     (fun v => let (o, a, r, n, e, s) := v in MnemonicOmit.i_vcmpgesd_xo (r 0) (widen_op (o 1)));
   mkB "vcmpgess_xo" (fun v => let (o, a, r, n, e, s) := v in MnemonicOmit32.i_vcmpgess_xo (r 0) (o 1))
     (fun v => let (o, a, r, n, e, s) := v in MnemonicOmit.i_vcmpgess_xo (r 0) (widen_op (o 1)));
   mkB "vcmpgt_oqpd_xo" (fun v => let (o, a, r, n, e, s) := v in MnemonicOmit32.i_vcmpgt_oqpd_xo (r 0) (o 1))
     (fun v => let (o, a, r, n, e, s) := v in MnemonicOmit.i_vcmpgt_oqpd_xo (r 0) (widen_op (o 1)));
   mkB "vcmpgt_oqps_xo" (fun v => let (o, a, r, n, e, s) := v in MnemonicOmit32.i_vcmpgt_oqps_xo (r 0) (o 1))
     (fun v => let (o, a, r, n, e, s) := v in MnemonicOmit.i_vcmpgt_oqps_xo (r 0) (widen_op (o 1)))].
Lemma sims79_ok : Forall same sims79.
Proof. unfold sims79.
row. { unfold MnemonicOmit32.i_vcmpeq_usps_xo, Mnemonic32.i_vcmpeq_usps_xxo, Mnemonic32.i_vcmpps_xxoi, MnemonicOmit.i_vcmpeq_usps_xo, Mnemonic.i_vcmpeq_usps_xxo, Mnemonic.i_vcmpps_xxoi. row_sim. }
row. { unfold MnemonicOmit32.i_vcmpeq_ussd_xo, Mnemonic32.i_vcmpeq_ussd_xxo, Mnemonic32.i_vcmpsd_xxoi, MnemonicOmit.i_vcmpeq_ussd_xo, Mnemonic.i_vcmpeq_ussd_xxo, Mnemonic.i_vcmpsd_xxoi. row_sim. }
row. { unfold MnemonicOmit32.i_vcmpeq_usss_xo, Mnemonic32.i_vcmpeq_usss_xxo, Mnemonic32.i_vcmpss_xxoi, MnemonicOmit.i_vcmpeq_usss_xo, Mnemonic.i_vcmpeq_usss_xxo, Mnemonic.i_vcmpss_xxoi. row_sim. }
row. { unfold MnemonicOmit32.i_vcmpeqpd_xo, Mnemonic32.i_vcmpeqpd_xxo, Mnemonic32.i_vcmppd_xxoi, MnemonicOmit.i_vcmpeqpd_xo, Mnemonic.i_vcmpeqpd_xxo, Mnemonic.i_vcmppd_xxoi. row_sim. }
row. { unfold MnemonicOmit32.i_vcmpeqps_xo, Mnemonic32.i_vcmpeqps_xxo, Mnemonic32.i_vcmpps_xxoi, MnemonicOmit.i_vcmpeqps_xo, Mnemonic.i_vcmpeqps_xxo, Mnemonic.i_vcmpps_xxoi. row_sim. }
row. { unfold MnemonicOmit32.i_vcmpeqsd_xo, Mnemonic32.i_vcmpeqsd_xxo, Mnemonic32.i_vcmpsd_xxoi, MnemonicOmit.i_vcmpeqsd_xo, Mnemonic.i_vcmpeqsd_xxo, Mnemonic.i_vcmpsd_xxoi. row_sim. }
row. { unfold MnemonicOmit32.i_vcmpeqss_xo, Mnemonic32.i_vcmpeqss_xxo, Mnemonic32.i_vcmpss_xxoi, MnemonicOmit.i_vcmpeqss_xo, Mnemonic.i_vcmpeqss_xxo, Mnemonic.i_vcmpss_xxoi. row_sim. }
row. { unfold MnemonicOmit32.i_vcmpfalse_ospd_xo, Mnemonic32.i_vcmpfalse_ospd_xxo, Mnemonic32.i_vcmppd_xxoi, MnemonicOmit.i_vcmpfalse_ospd_xo, Mnemonic.i_vcmpfalse_ospd_xxo, Mnemonic.i_vcmppd_xxoi. row_sim. }
row. { unfold MnemonicOmit32.i_vcmpfalse_osps_xo, Mnemonic32.i_vcmpfalse_osps_xxo, Mnemonic32.i_vcmpps_xxoi, MnemonicOmit.i_vcmpfalse_osps_xo, Mnemonic.i_vcmpfalse_osps_xxo, Mnemonic.i_vcmpps_xxoi. row_sim. }
row. { unfold MnemonicOmit32.i_vcmpfalse_ossd_xo, Mnemonic32.i_vcmpfalse_ossd_xxo, Mnemonic32.i_vcmpsd_xxoi, MnemonicOmit.i_vcmpfalse_ossd_xo, Mnemonic.i_vcmpfalse_ossd_xxo, Mnemonic.i_vcmpsd_xxoi. row_sim. }
row. { unfold MnemonicOmit32.i_vcmpfalse_osss_xo, Mnemonic32.i_vcmpfalse_osss_xxo, Mnemonic32.i_vcmpss_xxoi, MnemonicOmit.i_vcmpfalse_osss_xo, Mnemonic.i_vcmpfalse_osss_xxo, Mnemonic.i_vcmpss_xxoi. row_sim. }
row. { unfold MnemonicOmit32.i_vcmpfalsepd_xo, Mnemonic32.i_vcmpfalsepd_xxo, Mnemonic32.i_vcmppd_xxoi, MnemonicOmit.i_vcmpfalsepd_xo, Mnemonic.i_vcmpfalsepd_xxo, Mnemonic.i_vcmppd_xxoi. row_sim. }
row. { unfold MnemonicOmit32.i_vcmpfalseps_xo, Mnemonic32.i_vcmpfalseps_xxo, Mnemonic32.i_vcmpps_xxoi, MnemonicOmit.i_vcmpfalseps_xo, Mnemonic.i_vcmpfalseps_xxo, Mnemonic.i_vcmpps_xxoi. row_sim. }
row. { unfold MnemonicOmit32.i_vcmpfalsesd_xo, Mnemonic32.i_vcmpfalsesd_xxo, Mnemonic32.i_vcmpsd_xxoi, MnemonicOmit.i_vcmpfalsesd_xo, Mnemonic.i_vcmpfalsesd_xxo, Mnemonic.i_vcmpsd_xxoi. row_sim. }
row. { unfold MnemonicOmit32.i_vcmpfalsess_xo, Mnemonic32.i_vcmpfalsess_xxo, Mnemonic32.i_vcmpss_xxoi, MnemonicOmit.i_vcmpfalsess_xo, Mnemonic.i_vcmpfalsess_xxo, Mnemonic.i_vcmpss_xxoi. row_sim. }
row. { unfold MnemonicOmit32.i_vcmpge_oqpd_xo, Mnemonic32.i_vcmpge_oqpd_xxo, Mnemonic32.i_vcmppd_xxoi, MnemonicOmit.i_vcmpge_oqpd_xo, Mnemonic.i_vcmpge_oqpd_xxo, Mnemonic.i_vcmppd_xxoi. row_sim. }
row. { unfold MnemonicOmit32.i_vcmpge_oqps_xo, Mnemonic32.i_vcmpge_oqps_xxo, Mnemonic32.i_vcmpps_xxoi, MnemonicOmit.i_vcmpge_oqps_xo, Mnemonic.i_vcmpge_oqps_xxo, Mnemonic.i_vcmpps_xxoi. row_sim. }
row. { unfold MnemonicOmit32.i_vcmpge_oqsd_xo, Mnemonic32.i_vcmpge_oqsd_xxo, Mnemonic32.i_vcmpsd_xxoi, MnemonicOmit.i_vcmpge_oqsd_xo, Mnemonic.i_vcmpge_oqsd_xxo, Mnemonic.i_vcmpsd_xxoi. row_sim. }
row. { unfold MnemonicOmit32.i_vcmpge_oqss_xo, Mnemonic32.i_vcmpge_oqss_xxo, Mnemonic32.i_vcmpss_xxoi, MnemonicOmit.i_vcmpge_oqss_xo, Mnemonic.i_vcmpge_oqss_xxo, Mnemonic.i_vcmpss_xxoi. row_sim. }
row. { unfold MnemonicOmit32.i_vcmpgepd_xo, Mnemonic32.i_vcmpgepd_xxo, Mnemonic32.i_vcmppd_xxoi, MnemonicOmit.i_vcmpgepd_xo, Mnemonic.i_vcmpgepd_xxo, Mnemonic.i_vcmppd_xxoi. row_sim. }
row. { unfold MnemonicOmit32.i_vcmpgeps_xo, Mnemonic32.i_vcmpgeps_xxo, Mnemonic32.i_vcmpps_xxoi, MnemonicOmit.i_vcmpgeps_xo, Mnemonic.i_vcmpgeps_xxo, Mnemonic.i_vcmpps_xxoi. row_sim. }
row. { unfold MnemonicOmit32.i_vcmpgesd_xo, Mnemonic32.i_vcmpgesd_xxo, Mnemonic32.i_vcmpsd_xxoi, MnemonicOmit.i_vcmpgesd_xo, Mnemonic.i_vcmpgesd_xxo, Mnemonic.i_vcmpsd_xxoi. row_sim. }
row. { unfold MnemonicOmit32.i_vcmpgess_xo, Mnemonic32.i_vcmpgess_xxo, Mnemonic32.i_vcmpss_xxoi, MnemonicOmit.i_vcmpgess_xo, Mnemonic.i_vcmpgess_xxo, Mnemonic.i_vcmpss_xxoi. row_sim. }
row. { unfold MnemonicOmit32.i_vcmpgt_oqpd_xo, Mnemonic32.i_vcmpgt_oqpd_xxo, Mnemonic32.i_vcmppd_xxoi, MnemonicOmit.i_vcmpgt_oqpd_xo, Mnemonic.i_vcmpgt_oqpd_xxo, Mnemonic.i_vcmppd_xxoi. row_sim. }
row. { unfold MnemonicOmit32.i_vcmpgt_oqps_xo, Mnemonic32.i_vcmpgt_oqps_xxo, Mnemonic32.i_vcmpps_xxoi, MnemonicOmit.i_vcmpgt_oqps_xo, Mnemonic.i_vcmpgt_oqps_xxo, Mnemonic.i_vcmpps_xxoi. row_sim. }
apply Forall_nil. Qed.
Definition sims80 : list b_entry :=
  [mkB "vcmpgt_oqsd_xo" (fun v => let (o, a, r, n, e, s) := v in MnemonicOmit32.i_vcmpgt_oqsd_xo (r 0) (o 1))
     (fun v => let (o, a, r, n, e, s) := v in MnemonicOmit.i_vcmpgt_oqsd_xo (r 0) (widen_op (o 1)));
   mkB "vcmpgt_oqss_xo" (fun v => let (o, a, r, n, e, s) := v in MnemonicOmit32.i_vcmpgt_oqss_xo (r 0) (o 1))
     (fun v => let (o, a, r, n, e, s) := v in MnemonicOmit.i_vcmpgt_oqss_xo (r 0) (widen_op (o 1)));
   mkB "vcmpgtpd_xo" (fun v => let (o, a, r, n, e, s) := v in MnemonicOmit32.i_vcmpgtpd_xo (r 0) (o 1))
     (fun v => let (o, a, r, n, e, s) := v in MnemonicOmit.i_vcmpgtpd_xo (r 0) (widen_op (o 1)));
   mkB "vcmpgtps_xo" (fun v => let (o, a, r, n, e, s) := v in MnemonicOmit32.i_vcmpgtps_xo (r 0) (o 1))
     (fun v => let (o, a, r, n, e, s) := v in MnemonicOmit.i_vcmpgtps_xo (r 0) (widen_op (o 1)));
   mkB "vcmpgtsd_xo" (fun v => let (o, a, r, n, e, s) := v in MnemonicOmit32.i_vcmpgtsd_xo (r 0) (o 1))
     (fun v => let (o, a, r, n, e, s) := v in MnemonicOmit.i_vcmpgtsd_xo (r 0) (widen_op (o 1)));
   mkB "vcmpgtss_xo" (fun v => let (o, a, r, n, e, s) := v in MnemonicOmit32.i_vcmpgtss_xo (r 0) (o 1))
     (fun v => let (o, a, r, n, e, s) := v in MnemonicOmit.i_vcmpgtss_xo (r 0) (widen_op (o 1)));
   mkB "vcmple_oqpd_xo" (fun v => let (o, a, r, n, e, s) := v in MnemonicOmit32.i_vcmple_oqpd_xo (r 0) (o 1))
     (fun v => let (o, a, r, n, e, s) := v in MnemonicOmit.i_vcmple_oqpd_xo (r 0) (widen_op (o 1)));
   mkB "vcmple_oqps_xo" (fun v => let (o, a, r, n, e, s) := v in MnemonicOmit32.i_vcmple_oqps_xo (r 0) (o 1))
     (fun v => let (o, a, r, n, e, s) := v in MnemonicOmit.i_vcmple_oqps_xo (r 0) (widen_op (o 1)));
   mkB "vcmple_oqsd_xo" (fun v => let (o, a, r, n, e, s) := v in MnemonicOmit32.i_vcmple_oqsd_xo (r 0) (o 1))
     (fun v => let (o, a, r, n, e, s) := v in MnemonicOmit.i_vcmple_oqsd_xo (r 0) (widen_op (o 1)));
   mkB "vcmple_oqss_xo" (fun v => let (o, a, r, n, e, s) := v in MnemonicOmit32.i_vcmple_oqss_xo (r 0) (o 1))
     (fun v => let (o, a, r, n, e, s) := v in MnemonicOmit.i_vcmple_oqss_xo (r 0) (widen_op (o 1)));
   mkB "vcmplepd_xo" (fun v => let (o, a, r, n, e, s) := v in MnemonicOmit32.i_vcmplepd_xo (r 0) (o 1))
     (fun v => let (o, a, r, n, e, s) := v in MnemonicOmit.i_vcmplepd_xo (r 0) (widen_op (o 1)));
   mkB "vcmpleps_xo" (fun v => let (o, a, r, n, e, s) := v in MnemonicOmit32.i_vcmpleps_xo (r 0) (o 1))
     (fun v => let (o, a, r, n, e, s) := v in MnemonicOmit.i_vcmpleps_xo (r 0) (widen_op (o 1)));
   mkB "vcmplesd_xo" (fun v => let (o, a, r, n, e, s) := v in MnemonicOmit32.i_vcmplesd_xo (r 0) (o 1))
     (fun v => let (o, a, r, n, e, s) := v in MnemonicOmit.i_vcmplesd_xo (r 0) (widen_op (o 1)));
   mkB "vcmpless_xo" (fun v => let (o, a, r, n, e, s) := v in MnemonicOmit32.i_vcmpless_xo (r 0) (o 1))
     (fun v => let (o, a, r, n, e, s) := v in MnemonicOmit.i_vcmpless_xo (r 0) (widen_op (o 1)));
   mkB "vcmplt_oqpd_xo" (fun v => let (o, a, r, n, e, s) := v in MnemonicOmit32.i_vcmplt_oqpd_xo (r 0) (o 1))
     (fun v => let (o, a, r, n, e, s) := v in MnemonicOmit.i_vcmplt_oqpd_xo (r 0) (widen_op (o 1)));
   mkB "vcmplt_oqps_xo" (fun v => let (o, a, r, n, e, s) := v in MnemonicOmit32.i_vcmplt_oqps_xo (r 0) (o 1))
     (fun v => let (o, a, r, n, e, s) := v in MnemonicOmit.i_vcmplt_oqps_xo (r 0) (widen_op (o 1)));
   mkB "vcmplt_oqsd_xo" (fun v => let (o, a, r, n, e, s) := v in MnemonicOmit32.i_vcmplt_oqsd_xo (r 0) (o 1))
     (fun v => let (o, a, r, n, e, s) := v in MnemonicOmit.i_vcmplt_oqsd_xo (r 0) (widen_op (o 1)));
   mkB "vcmplt_oqss_xo" (fun v => let (o, a, r, n, e, s) := v in MnemonicOmit32.i_vcmplt_oqss_xo (r 0) (o 1))
     (fun v => let (o, a, r, n, e, s) := v in MnemonicOmit.i_vcmplt_oqss_xo (r 0) (widen_op (o 1)));
   mkB "vcmpltpd_xo" (fun v => let (o, a, r, n, e, s) := v in MnemonicOmit32.i_vcmpltpd_xo (r 0) (o 1))
     (fun v => let (o, a, r, n, e, s) := v in MnemonicOmit.i_vcmpltpd_xo (r 0) (widen_op (o 1)));
   mkB "vcmpltps_xo" (fun v => let (o, a, r, n, e, s) := v in MnemonicOmit32.i_vcmpltps_xo (r 0) (o 1))
     (fun v => let (o, a, r, n, e, s) := v in MnemonicOmit.i_vcmpltps_xo (r 0) (widen_op (o 1)));
   mkB "vcmpltsd_xo" (fun v => let (o, a, r, n, e, s) := v in MnemonicOmit32.i_vcmpltsd_xo (r 0) (o 1))
     (fun v => let (o, a, r, n, e, s) := v in MnemonicOmit.i_vcmpltsd_xo (r 0) (widen_op (o 1)));
   mkB "vcmpltss_xo" (fun v => let (o, a, r, n, e, s) := v in MnemonicOmit32.i_vcmpltss_xo (r 0) (o 1))
     (fun v => let (o, a, r, n, e, s) := v in MnemonicOmit.i_vcmpltss_xo (r 0) (widen_op (o 1)));
   mkB "vcmpneq_oqpd_xo" (fun v => let (o, a, r, n, e, s) := v in MnemonicOmit32.i_vcmpneq_oqpd_xo (r 0) (o 1))
     (fun v => let (o, a, r, n, e, s) := v in MnemonicOmit.i_vcmpneq_oqpd_xo (r 0) (widen_op (o 1)));
   mkB "vcmpneq_oqps_xo" (fun v => let (o, a, r, n, e, s) := v in MnemonicOmit32.i_vcmpneq_oqps_xo (r 0) (o 1))
     (fun v => let (o, a, r, n, e, s) := v in MnemonicOmit.i_vcmpneq_oqps_xo (r 0) (widen_op (o 1)));
   mkB "vcmpneq_oqsd_xo" (fun v => let (o, a, r, n, e, s) := v in MnemonicOmit32.i_vcmpneq_oqsd_xo (r 0) (o 1))
     (fun v => let (o, a, r, n, e, s) := v in MnemonicOmit.i_vcmpneq_oqsd_xo (r 0) (widen_op (o 1)))].
Lemma sims80_ok : Forall same sims80.
Proof. unfold sims80.
row. { unfold MnemonicOmit32.i_vcmpgt_oqsd_xo, Mnemonic32.i_vcmpgt_oqsd_xxo, Mnemonic32.i_vcmpsd_xxoi, MnemonicOmit.i_vcmpgt_oqsd_xo, Mnemonic.i_vcmpgt_oqsd_xxo, Mnemonic.i_vcmpsd_xxoi. row_sim. }
row. { unfold MnemonicOmit32.i_vcmpgt_oqss_xo, Mnemonic32.i_vcmpgt_oqss_xxo, Mnemonic32.i_vcmpss_xxoi, MnemonicOmit.i_vcmpgt_oqss_xo, Mnemonic.i_vcmpgt_oqss_xxo, Mnemonic.i_vcmpss_xxoi. row_sim. }
row. { unfold MnemonicOmit32.i_vcmpgtpd_xo, Mnemonic32.i_vcmpgtpd_xxo, Mnemonic32.i_vcmppd_xxoi, MnemonicOmit.i_vcmpgtpd_xo, Mnemonic.i_vcmpgtpd_xxo, Mnemonic.i_vcmppd_xxoi. row_sim. }
row. { unfold MnemonicOmit32.i_vcmpgtps_xo, Mnemonic32.i_vcmpgtps_xxo, Mnemonic32.i_vcmpps_xxoi, MnemonicOmit.i_vcmpgtps_xo, Mnemonic.i_vcmpgtps_xxo, Mnemonic.i_vcmpps_xxoi. row_sim. }
row. { unfold MnemonicOmit32.i_vcmpgtsd_xo, Mnemonic32.i_vcmpgtsd_xxo, Mnemonic32.i_vcmpsd_xxoi, MnemonicOmit.i_vcmpgtsd_xo, Mnemonic.i_vcmpgtsd_xxo, Mnemonic.i_vcmpsd_xxoi. row_sim. }
row. { unfold MnemonicOmit32.i_vcmpgtss_xo, Mnemonic32.i_vcmpgtss_xxo, Mnemonic32.i_vcmpss_xxoi, MnemonicOmit.i_vcmpgtss_xo, Mnemonic.i_vcmpgtss_xxo, Mnemonic.i_vcmpss_xxoi. row_sim. }
row. { unfold MnemonicOmit32.i_vcmple_oqpd_xo, Mnemonic32.i_vcmple_oqpd_xxo, Mnemonic32.i_vcmppd_xxoi, MnemonicOmit.i_vcmple_oqpd_xo, Mnemonic.i_vcmple_oqpd_xxo, Mnemonic.i_vcmppd_xxoi. row_sim. }
row. { unfold MnemonicOmit32.i_vcmple_oqps_xo, Mnemonic32.i_vcmple_oqps_xxo, Mnemonic32.i_vcmpps_xxoi, MnemonicOmit.i_vcmple_oqps_xo, Mnemonic.i_vcmple_oqps_xxo, Mnemonic.i_vcmpps_xxoi. row_sim. }
row. { unfold MnemonicOmit32.i_vcmple_oqsd_xo, Mnemonic32.i_vcmple_oqsd_xxo, Mnemonic32.i_vcmpsd_xxoi, MnemonicOmit.i_vcmple_oqsd_xo, Mnemonic.i_vcmple_oqsd_xxo, Mnemonic.i_vcmpsd_xxoi. row_sim. }
row. { unfold MnemonicOmit32.i_vcmple_oqss_xo, Mnemonic32.i_vcmple_oqss_xxo, Mnemonic32.i_vcmpss_xxoi, MnemonicOmit.i_vcmple_oqss_xo, Mnemonic.i_vcmple_oqss_xxo, Mnemonic.i_vcmpss_xxoi. row_sim. }
row. { unfold MnemonicOmit32.i_vcmplepd_xo, Mnemonic32.i_vcmplepd_xxo, Mnemonic32.i_vcmppd_xxoi, MnemonicOmit.i_vcmplepd_xo, Mnemonic.i_vcmplepd_xxo, Mnemonic.i_vcmppd_xxoi. row_sim. }
row. { unfold MnemonicOmit32.i_vcmpleps_xo, Mnemonic32.i_vcmpleps_xxo, Mnemonic32.i_vcmpps_xxoi, MnemonicOmit.i_vcmpleps_xo, Mnemonic.i_vcmpleps_xxo, Mnemonic.i_vcmpps_xxoi. row_sim. }
row. { unfold MnemonicOmit32.i_vcmplesd_xo, Mnemonic32.i_vcmplesd_xxo, Mnemonic32.i_vcmpsd_xxoi, MnemonicOmit.i_vcmplesd_xo, Mnemonic.i_vcmplesd_xxo, Mnemonic.i_vcmpsd_xxoi. row_sim. }
row. { unfold MnemonicOmit32.i_vcmpless_xo, Mnemonic32.i_vcmpless_xxo, Mnemonic32.i_vcmpss_xxoi, MnemonicOmit.i_vcmpless_xo, Mnemonic.i_vcmpless_xxo, Mnemonic.i_vcmpss_xxoi. row_sim. }
row. { unfold MnemonicOmit32.i_vcmplt_oqpd_xo, Mnemonic32.i_vcmplt_oqpd_xxo, Mnemonic32.i_vcmppd_xxoi, MnemonicOmit.i_vcmplt_oqpd_xo, Mnemonic.i_vcmplt_oqpd_xxo, Mnemonic.i_vcmppd_xxoi. row_sim. }
row. { unfold MnemonicOmit32.i_vcmplt_oqps_xo, Mnemonic32.i_vcmplt_oqps_xxo, Mnemonic32.i_vcmpps_xxoi, MnemonicOmit.i_vcmplt_oqps_xo, Mnemonic.i_vcmplt_oqps_xxo, Mnemonic.i_vcmpps_xxoi. row_sim. }
row. { unfold MnemonicOmit32.i_vcmplt_oqsd_xo, Mnemonic32.i_vcmplt_oqsd_xxo, Mnemonic32.i_vcmpsd_xxoi, MnemonicOmit.i_vcmplt_oqsd_xo, Mnemonic.i_vcmplt_oqsd_xxo, Mnemonic.i_vcmpsd_xxoi. row_sim. }
row. { unfold MnemonicOmit32.i_vcmplt_oqss_xo, Mnemonic32.i_vcmplt_oqss_xxo, Mnemonic32.i_vcmpss_xxoi, MnemonicOmit.i_vcmplt_oqss_xo, Mnemonic.i_vcmplt_oqss_xxo, Mnemonic.i_vcmpss_xxoi. row_sim. }
row. { unfold MnemonicOmit32.i_vcmpltpd_xo, Mnemonic32.i_vcmpltpd_xxo, Mnemonic32.i_vcmppd_xxoi, MnemonicOmit.i_vcmpltpd_xo, Mnemonic.i_vcmpltpd_xxo, Mnemonic.i_vcmppd_xxoi. row_sim. }
row. { unfold MnemonicOmit32.i_vcmpltps_xo, Mnemonic32.i_vcmpltps_xxo, Mnemonic32.i_vcmpps_xxoi, MnemonicOmit.i_vcmpltps_xo, Mnemonic.i_vcmpltps_xxo, Mnemonic.i_vcmpps_xxoi. row_sim. }
row. { unfold MnemonicOmit32.i_vcmpltsd_xo, Mnemonic32.i_vcmpltsd_xxo, Mnemonic32.i_vcmpsd_xxoi, MnemonicOmit.i_vcmpltsd_xo, Mnemonic.i_vcmpltsd_xxo, Mnemonic.i_vcmpsd_xxoi. row_sim. }
row. { unfold MnemonicOmit32.i_vcmpltss_xo, Mnemonic32.i_vcmpltss_xxo, Mnemonic32.i_vcmpss_xxoi, MnemonicOmit.i_vcmpltss_xo, Mnemonic.i_vcmpltss_xxo, Mnemonic.i_vcmpss_xxoi. row_sim. }
row. { unfold MnemonicOmit32.i_vcmpneq_oqpd_xo, Mnemonic32.i_vcmpneq_oqpd_xxo, Mnemonic32.i_vcmppd_xxoi, MnemonicOmit.i_vcmpneq_oqpd_xo, Mnemonic.i_vcmpneq_oqpd_xxo, Mnemonic.i_vcmppd_xxoi. row_sim. }
row. { unfold MnemonicOmit32.i_vcmpneq_oqps_xo, Mnemonic32.i_vcmpneq_oqps_xxo, Mnemonic32.i_vcmpps_xxoi, MnemonicOmit.i_vcmpneq_oqps_xo, Mnemonic.i_vcmpneq_oqps_xxo, Mnemonic.i_vcmpps_xxoi. row_sim. }
row. { unfold MnemonicOmit32.i_vcmpneq_oqsd_xo, Mnemonic32.i_vcmpneq_oqsd_xxo, Mnemonic32.i_vcmpsd_xxoi, MnemonicOmit.i_vcmpneq_oqsd_xo, Mnemonic.i_vcmpneq_oqsd_xxo, Mnemonic.i_vcmpsd_xxoi. row_sim. }
apply Forall_nil. Qed.
Definition sims81 : list b_entry :=
  [mkB "vcmpneq_oqss_xo" (fun v => let (o, a, r, n, e, s) := v in MnemonicOmit32.i_vcmpneq_oqss_xo (r 0) (o 1))
     (fun v => let (o, a, r, n, e, s) := v in MnemonicOmit.i_vcmpneq_oqss_xo (r 0) (widen_op (o 1)));
   mkB "vcmpneq_ospd_xo" (fun v => let (o, a, r, n, e, s) := v in MnemonicOmit32.i_vcmpneq_ospd_xo (r 0) (o 1))
     (fun v => let (o, a, r, n, e, s) := v in MnemonicOmit.i_vcmpneq_ospd_xo (r 0) (widen_op (o 1)));
   mkB "vcmpneq_osps_xo" (fun v => let (o, a, r, n, e, s) := v in MnemonicOmit32.i_vcmpneq_osps_xo (r 0) (o 1))
     (fun v => let (o, a, r, n, e, s) := v in MnemonicOmit.i_vcmpneq_osps_xo (r 0) (widen_op (o 1)));
   mkB "vcmpneq_ossd_xo" (fun v => let (o, a, r, n, e, s) := v in MnemonicOmit32.i_vcmpneq_ossd_xo (r 0) (o 1))
     (fun v => let (o, a, r, n, e, s) := v in MnemonicOmit.i_vcmpneq_ossd_xo (r 0) (widen_op (o 1)));
   mkB "vcmpneq_osss_xo" (fun v => let (o, a, r, n, e, s) := v in MnemonicOmit32.i_vcmpneq_osss_xo (r 0) (o 1))
     (fun v => let (o, a, r, n, e, s) := v in MnemonicOmit.i_vcmpneq_osss_xo (r 0) (widen_op (o 1)));
   mkB "vcmpneq_uspd_xo" (fun v => let (o, a, r, n, e, s) := v in MnemonicOmit32.i_vcmpneq_uspd_xo (r 0) (o 1))
     (fun v => let (o, a, r, n, e, s) := v in MnemonicOmit.i_vcmpneq_uspd_xo (r 0) (widen_op (o 1)));
   mkB "vcmpneq_usps_xo" (fun v => let (o, a, r, n, e, s) := v in MnemonicOmit32.i_vcmpneq_usps_xo (r 0) (o 1))
     (fun v => let (o, a, r, n, e, s) := v in MnemonicOmit.i_vcmpneq_usps_xo (r 0) (widen_op (o 1)));
   mkB "vcmpneq_ussd_xo" (fun v => let (o, a, r, n, e, s) := v in MnemonicOmit32.i_vcmpneq_ussd_xo (r 0) (o 1))
     (fun v => let (o, a, r, n, e, s) := v in MnemonicOmit.i_vcmpneq_ussd_xo (r 0) (widen_op (o 1)));
   mkB "vcmpneq_usss_xo" (fun v => let (o, a, r, n, e, s) := v in MnemonicOmit32.i_vcmpneq_usss_xo (r 0) (o 1))
     (fun v => let (o, a, r, n, e, s) := v in MnemonicOmit.i_vcmpneq_usss_xo (r 0) (widen_op (o 1)));
   mkB "vcmpneqpd_xo" (fun v => let (o, a, r, n, e, s) := v in MnemonicOmit32.i_vcmpneqpd_xo (r 0) (o 1))
     (fun v => let (o, a, r, n, e, s) := v in MnemonicOmit.i_vcmpneqpd_xo (r 0) (widen_op (o 1)));
   mkB "vcmpneqps_xo" (fun v => let (o, a, r, n, e, s) := v in MnemonicOmit32.i_vcmpneqps_xo (r 0) (o 1))
     (fun v => let (o, a, r, n, e, s) := v in MnemonicOmit.i_vcmpneqps_xo (r 0) (widen_op (o 1)));
   mkB "vcmpneqsd_xo" (fun v => let (o, a, r, n, e, s) := v in MnemonicOmit32.i_vcmpneqsd_xo (r 0) (o 1))
     (fun v => let (o, a, r, n, e, s) := v in MnemonicOmit.i_vcmpneqsd_xo (r 0) (widen_op (o 1)));
   mkB "vcmpneqss_xo" (fun v => let (o, a, r, n, e, s) := v in MnemonicOmit32.i_vcmpneqss_xo (r 0) (o 1))
     (fun v => let (o, a, r, n, e, s) := v in MnemonicOmit.i_vcmpneqss_xo (r 0) (widen_op (o 1)));
   mkB "vcmpnge_uqpd_xo" (fun v => let (o, a, r, n, e, s) := v in MnemonicOmit32.i_vcmpnge_uqpd_xo (r 0) (o 1))
     (fun v => let (o, a, r, n, e, s) := v in MnemonicOmit.i_vcmpnge_uqpd_xo (r 0) (widen_op (o 1)));
   mkB "vcmpnge_uqps_xo" (fun v => let (o, a, r, n, e, s) := v in MnemonicOmit32.i_vcmpnge_uqps_xo (r 0) (o 1))
     (fun v => let (o, a, r, n, e, s) := v in MnemonicOmit.i_vcmpnge_uqps_xo (r 0) (widen_op (o 1)));
   mkB "vcmpnge_uqsd_xo" (fun v => let (o, a, r, n, e, s) := v in MnemonicOmit32.i_vcmpnge_uqsd_xo (r 0) (o 1))
     (fun v => let (o, a, r, n, e, s) := v in MnemonicOmit.i_vcmpnge_uqsd_xo (r 0) (widen_op (o 1)));
   mkB "vcmpnge_uqss_xo" (fun v => let (o, a, r, n, e, s) := v in MnemonicOmit32.i_vcmpnge_uqss_xo (r 0) (o 1))
     (fun v => let (o, a, r, n, e, s) := v in MnemonicOmit.i_vcmpnge_uqss_xo (r 0) (widen_op (o 1)));
   mkB "vcmpngepd_xo" (fun v => let (o, a, r, n, e, s) := v in MnemonicOmit32.i_vcmpngepd_xo (r 0) (o 1))
     (fun v => let (o, a, r, n, e, s) := v in MnemonicOmit.i_vcmpngepd_xo (r 0) (widen_op (o 1)));
   mkB "vcmpngeps_xo" (fun v => let (o, a, r, n, e, s) := v in MnemonicOmit32.i_vcmpngeps_xo (r 0) (o 1))
     (fun v => let (o, a, r, n, e, s) := v in MnemonicOmit.i_vcmpngeps_xo (r 0) (widen_op (o 1)));
   mkB "vcmpngesd_xo" (fun v => let (o, a, r, n, e, s) := v in MnemonicOmit32.i_vcmpngesd_xo (r 0) (o 1))
     (fun v => let (o, a, r, n, e, s) := v in MnemonicOmit.i_vcmpngesd_xo (r 0) (widen_op (o 1)));
   mkB "vcmpngess_xo" (fun v => let (o, a, r, n, e, s) := v in MnemonicOmit32.i_vcmpngess_xo (r 0) (o 1))
     (fun v => let (o, a, r, n, e, s) := v in MnemonicOmit.i_vcmpngess_xo (r 0) (widen_op (o 1)));
   mkB "vcmpngt_uqpd_xo" (fun v => let (o, a, r, n, e, s) := v in MnemonicOmit32.i_vcmpngt_uqpd_xo (r 0) (o 1))
     (fun v => let (o, a, r, n, e, s) := v in MnemonicOmit.i_vcmpngt_uqpd_xo (r 0) (widen_op (o 1)));
   mkB "vcmpngt_uqps_xo" (fun v => let (o, a, r, n, e, s) := v in MnemonicOmit32.i_vcmpngt_uqps_xo (r 0) (o 1))
     (fun v => let (o, a, r, n, e, s) := v in MnemonicOmit.i_vcmpngt_uqps_xo (r 0) (widen_op (o 1)));
   mkB "vcmpngt_uqsd_xo" (fun v => let (o, a, r, n, e, s) := v in MnemonicOmit32.i_vcmpngt_uqsd_xo (r 0) (o 1))
     (fun v => let (o, a, r, n, e, s) := v in MnemonicOmit.i_vcmpngt_uqsd_xo (r 0) (widen_op (o 1)));
   mkB "vcmpngt_uqss_xo" (fun v => let (o, a, r, n, e, s) := v in MnemonicOmit32.i_vcmpngt_uqss_xo (r 0) (o 1))
     (fun v => let (o, a, r, n, e, s) := v in MnemonicOmit.i_vcmpngt_uqss_xo (r 0) (widen_op (o 1)))].
Lemma sims81_ok : Forall same sims81.
Proof. unfold sims81.
row. { unfold MnemonicOmit32.i_vcmpneq_oqss_xo, Mnemonic32.i_vcmpneq_oqss_xxo, Mnemonic32.i_vcmpss_xxoi, MnemonicOmit.i_vcmpneq_oqss_xo, Mnemonic.i_vcmpneq_oqss_xxo, Mnemonic.i_vcmpss_xxoi. row_sim. }
row. { unfold MnemonicOmit32.i_vcmpneq_ospd_xo, Mnemonic32.i_vcmpneq_ospd_xxo, Mnemonic32.i_vcmppd_xxoi, MnemonicOmit.i_vcmpneq_ospd_xo, Mnemonic.i_vcmpneq_ospd_xxo, Mnemonic.i_vcmppd_xxoi. row_sim. }
row. { unfold MnemonicOmit32.i_vcmpneq_osps_xo, Mnemonic32.i_vcmpneq_osps_xxo, Mnemonic32.i_vcmpps_xxoi, MnemonicOmit.i_vcmpneq_osps_xo, Mnemonic.i_vcmpneq_osps_xxo, Mnemonic.i_vcmpps_xxoi. row_sim. }
row. { unfold MnemonicOmit32.i_vcmpneq_ossd_xo, Mnemonic32.i_vcmpneq_ossd_xxo, Mnemonic32.i_vcmpsd_xxoi, MnemonicOmit.i_vcmpneq_ossd_xo, Mnemonic.i_vcmpneq_ossd_xxo, Mnemonic.i_vcmpsd_xxoi. row_sim. }
row. { unfold MnemonicOmit32.i_vcmpneq_osss_xo, Mnemonic32.i_vcmpneq_osss_xxo, Mnemonic32.i_vcmpss_xxoi, MnemonicOmit.i_vcmpneq_osss_xo, Mnemonic.i_vcmpneq_osss_xxo, Mnemonic.i_vcmpss_xxoi. row_sim. }
row. { unfold MnemonicOmit32.i_vcmpneq_uspd_xo, Mnemonic32.i_vcmpneq_uspd_xxo, Mnemonic32.i_vcmppd_xxoi, MnemonicOmit.i_vcmpneq_uspd_xo, Mnemonic.i_vcmpneq_uspd_xxo, Mnemonic.i_vcmppd_xxoi. row_sim. }
row. { unfold MnemonicOmit32.i_vcmpneq_usps_xo, Mnemonic32.i_vcmpneq_usps_xxo, Mnemonic32.i_vcmpps_xxoi, MnemonicOmit.i_vcmpneq_usps_xo, Mnemonic.i_vcmpneq_usps_xxo, Mnemonic.i_vcmpps_xxoi. row_sim. }
row. { unfold MnemonicOmit32.i_vcmpneq_ussd_xo, Mnemonic32.i_vcmpneq_ussd_xxo, Mnemonic32.i_vcmpsd_xxoi, MnemonicOmit.i_vcmpneq_ussd_xo, Mnemonic.i_vcmpneq_ussd_xxo, Mnemonic.i_vcmpsd_xxoi. row_sim. }
row. { unfold MnemonicOmit32.i_vcmpneq_usss_xo, Mnemonic32.i_vcmpneq_usss_xxo, Mnemonic32.i_vcmpss_xxoi, MnemonicOmit.i_vcmpneq_usss_xo, Mnemonic.i_vcmpneq_usss_xxo, Mnemonic.i_vcmpss_xxoi. row_sim. }
row. { unfold MnemonicOmit32.i_vcmpneqpd_xo, Mnemonic32.i_vcmpneqpd_xxo, Mnemonic32.i_vcmppd_xxoi, MnemonicOmit.i_vcmpneqpd_xo, Mnemonic.i_vcmpneqpd_xxo, Mnemonic.i_vcmppd_xxoi. row_sim. }
row. { unfold MnemonicOmit32.i_vcmpneqps_xo, Mnemonic32.i_vcmpneqps_xxo, Mnemonic32.i_vcmpps_xxoi, MnemonicOmit.i_vcmpneqps_xo, Mnemonic.i_vcmpneqps_xxo, Mnemonic.i_vcmpps_xxoi. row_sim. }
row. { unfold MnemonicOmit32.i_vcmpneqsd_xo, Mnemonic32.i_vcmpneqsd_xxo, Mnemonic32.i_vcmpsd_xxoi, MnemonicOmit.i_vcmpneqsd_xo, Mnemonic.i_vcmpneqsd_xxo, Mnemonic.i_vcmpsd_xxoi. row_sim. }
row. { unfold MnemonicOmit32.i_vcmpneqss_xo, Mnemonic32.i_vcmpneqss_xxo, Mnemonic32.i_vcmpss_xxoi, MnemonicOmit.i_vcmpneqss_xo, Mnemonic.i_vcmpneqss_xxo, Mnemonic.i_vcmpss_xxoi. row_sim. }
row. { unfold MnemonicOmit32.i_vcmpnge_uqpd_xo, Mnemonic32.i_vcmpnge_uqpd_xxo, Mnemonic32.i_vcmppd_xxoi, MnemonicOmit.i_vcmpnge_uqpd_xo, Mnemonic.i_vcmpnge_uqpd_xxo, Mnemonic.i_vcmppd_xxoi. row_sim. }
row. { unfold MnemonicOmit32.i_vcmpnge_uqps_xo, Mnemonic32.i_vcmpnge_uqps_xxo, Mnemonic32.i_vcmpps_xxoi, MnemonicOmit.i_vcmpnge_uqps_xo, Mnemonic.i_vcmpnge_uqps_xxo, Mnemonic.i_vcmpps_xxoi. row_sim. }
row. { unfold MnemonicOmit32.i_vcmpnge_uqsd_xo, Mnemonic32.i_vcmpnge_uqsd_xxo, Mnemonic32.i_vcmpsd_xxoi, MnemonicOmit.i_vcmpnge_uqsd_xo, Mnemonic.i_vcmpnge_uqsd_xxo, Mnemonic.i_vcmpsd_xxoi. row_sim. }
row. { unfold MnemonicOmit32.i_vcmpnge_uqss_xo, Mnemonic32.i_vcmpnge_uqss_xxo, Mnemonic32.i_vcmpss_xxoi, MnemonicOmit.i_vcmpnge_uqss_xo, Mnemonic.i_vcmpnge_uqss_xxo, Mnemonic.i_vcmpss_xxoi. row_sim. }
row. { unfold MnemonicOmit32.i_vcmpngepd_xo, Mnemonic32.i_vcmpngepd_xxo, Mnemonic32.i_vcmppd_xxoi, MnemonicOmit.i_vcmpngepd_xo, Mnemonic.i_vcmpngepd_xxo, Mnemonic.i_vcmppd_xxoi. row_sim. }
row. { unfold MnemonicOmit32.i_vcmpngeps_xo, Mnemonic32.i_vcmpngeps_xxo, Mnemonic32.i_vcmpps_xxoi, MnemonicOmit.i_vcmpngeps_xo, Mnemonic.i_vcmpngeps_xxo, Mnemonic.i_vcmpps_xxoi. row_sim. }
row. { unfold MnemonicOmit32.i_vcmpngesd_xo, Mnemonic32.i_vcmpngesd_xxo, Mnemonic32.i_vcmpsd_xxoi, MnemonicOmit.i_vcmpngesd_xo, Mnemonic.i_vcmpngesd_xxo, Mnemonic.i_vcmpsd_xxoi. row_sim. }
row. { unfold MnemonicOmit32.i_vcmpngess_xo, Mnemonic32.i_vcmpngess_xxo, Mnemonic32.i_vcmpss_xxoi, MnemonicOmit.i_vcmpngess_xo, Mnemonic.i_vcmpngess_xxo, Mnemonic.i_vcmpss_xxoi. row_sim. }
row. { unfold MnemonicOmit32.i_vcmpngt_uqpd_xo, Mnemonic32.i_vcmpngt_uqpd_xxo, Mnemonic32.i_vcmppd_xxoi, MnemonicOmit.i_vcmpngt_uqpd_xo, Mnemonic.i_vcmpngt_uqpd_xxo, Mnemonic.i_vcmppd_xxoi. row_sim. }
row. { unfold MnemonicOmit32.i_vcmpngt_uqps_xo, Mnemonic32.i_vcmpngt_uqps_xxo, Mnemonic32.i_vcmpps_xxoi, MnemonicOmit.i_vcmpngt_uqps_xo, Mnemonic.i_vcmpngt_uqps_xxo, Mnemonic.i_vcmpps_xxoi. row_sim. }
row. { unfold MnemonicOmit32.i_vcmpngt_uqsd_xo, Mnemonic32.i_vcmpngt_uqsd_xxo, Mnemonic32.i_vcmpsd_xxoi, MnemonicOmit.i_vcmpngt_uqsd_xo, Mnemonic.i_vcmpngt_uqsd_xxo, Mnemonic.i_vcmpsd_xxoi. row_sim. }
row. { unfold MnemonicOmit32.i_vcmpngt_uqss_xo, Mnemonic32.i_vcmpngt_uqss_xxo, Mnemonic32.i_vcmpss_xxoi, MnemonicOmit.i_vcmpngt_uqss_xo, Mnemonic.i_vcmpngt_uqss_xxo, Mnemonic.i_vcmpss_xxoi. row_sim. }
apply Forall_nil. Qed.
Definition sims82 : list b_entry :=
  [mkB "vcmpngtpd_xo" (fun v => let (o, a, r, n, e, s) := v in MnemonicOmit32.i_vcmpngtpd_xo (r 0) (o 1))
     (fun v => let (o, a, r, n, e, s) := v in MnemonicOmit.i_vcmpngtpd_xo (r 0) (widen_op (o 1)));
   mkB "vcmpngtps_xo" (fun v => let (o, a, r, n, e, s) := v in MnemonicOmit32.i_vcmpngtps_xo (r 0) (o 1))
     (fun v => let (o, a, r, n, e, s) := v in MnemonicOmit.i_vcmpngtps_xo (r 0) (widen_op (o 1)));
   mkB "vcmpngtsd_xo" (fun v => let (o, a, r, n, e, s) := v in MnemonicOmit32.i_vcmpngtsd_xo (r 0) (o 1))
     (fun v => let (o, a, r, n, e, s) := v in MnemonicOmit.i_vcmpngtsd_xo (r 0) (widen_op (o 1)));
   mkB "vcmpngtss_xo" (fun v => let (o, a, r, n, e, s) := v in MnemonicOmit32.i_vcmpngtss_xo (r 0) (o 1))
     (fun v => let (o, a, r, n, e, s) := v in MnemonicOmit.i_vcmpngtss_xo (r 0) (widen_op (o 1)));
   mkB "vcmpnle_uqpd_xo" (fun v => let (o, a, r, n, e, s) := v in MnemonicOmit32.i_vcmpnle_uqpd_xo (r 0) (o 1))
     (fun v => let (o, a, r, n, e, s) := v in MnemonicOmit.i_vcmpnle_uqpd_xo (r 0) (widen_op (o 1)));
   mkB "vcmpnle_uqps_xo" (fun v => let (o, a, r, n, e, s) := v in MnemonicOmit32.i_vcmpnle_uqps_xo (r 0) (o 1))
     (fun v => let (o, a, r, n, e, s) := v in MnemonicOmit.i_vcmpnle_uqps_xo (r 0) (widen_op (o 1)));
   mkB "vcmpnle_uqsd_xo" (fun v => let (o, a, r, n, e, s) := v in MnemonicOmit32.i_vcmpnle_uqsd_xo (r 0) (o 1))
     (fun v => let (o, a, r, n, e, s) := v in MnemonicOmit.i_vcmpnle_uqsd_xo (r 0) (widen_op (o 1)));
   mkB "vcmpnle_uqss_xo" (fun v => let (o, a, r, n, e, s) := v in MnemonicOmit32.i_vcmpnle_uqss_xo (r 0) (o 1))
     (fun v => let (o, a, r, n, e, s) := v in MnemonicOmit.i_vcmpnle_uqss_xo (r 0) (widen_op (o 1)));
   mkB "vcmpnlepd_xo" (fun v => let (o, a, r, n, e, s) := v in MnemonicOmit32.i_vcmpnlepd_xo (r 0) (o 1))
     (fun v => let (o, a, r, n, e, s) := v in MnemonicOmit.i_vcmpnlepd_xo (r 0) (widen_op (o 1)));
   mkB "vcmpnleps_xo" (fun v => let (o, a, r, n, e, s) := v in MnemonicOmit32.i_vcmpnleps_xo (r 0) (o 1))
     (fun v => let (o, a, r, n, e, s) := v in MnemonicOmit.i_vcmpnleps_xo (r 0) (widen_op (o 1)));
   mkB "vcmpnlesd_xo" (fun v => let (o, a, r, n, e, s) := v in MnemonicOmit32.i_vcmpnlesd_xo (r 0) (o 1))
     (fun v => let (o, a, r, n, e, s) := v in MnemonicOmit.i_vcmpnlesd_xo (r 0) (widen_op (o 1)));
   mkB "vcmpnless_xo" (fun v => let (o, a, r, n, e, s) := v in MnemonicOmit32.i_vcmpnless_xo (r 0) (o 1))
     (fun v => let (o, a, r, n, e, s) := v in MnemonicOmit.i_vcmpnless_xo (r 0) (widen_op (o 1)));
   mkB "vcmpnlt_uqpd_xo" (fun v => let (o, a, r, n, e, s) := v in MnemonicOmit32.i_vcmpnlt_uqpd_xo (r 0) (o 1))
     (fun v => let (o, a, r, n, e, s) := v in MnemonicOmit.i_vcmpnlt_uqpd_xo (r 0) (widen_op (o 1)));
   mkB "vcmpnlt_uqps_xo" (fun v => let (o, a, r, n, e, s) := v in MnemonicOmit32.i_vcmpnlt_uqps_xo (r 0) (o 1))
     (fun v => let (o, a, r, n, e, s) := v in MnemonicOmit.i_vcmpnlt_uqps_xo (r 0) (widen_op (o 1)));
   mkB "vcmpnlt_uqsd_xo" (fun v => let (o, a, r, n, e, s) := v in MnemonicOmit32.i_vcmpnlt_uqsd_xo (r 0) (o 1))
     (fun v => let (o, a, r, n, e, s) := v in MnemonicOmit.i_vcmpnlt_uqsd_xo (r 0) (widen_op (o 1)));
   mkB "vcmpnlt_uqss_xo" (fun v => let (o, a, r, n, e, s) := v in MnemonicOmit32.i_vcmpnlt_uqss_xo (r 0) (o 1))
     (fun v => let (o, a, r, n, e, s) := v in MnemonicOmit.i_vcmpnlt_uqss_xo (r 0) (widen_op (o 1)));
   mkB "vcmpnltpd_xo" (fun v => let (o, a, r, n, e, s) := v in MnemonicOmit32.i_vcmpnltpd_xo (r 0) (o 1))
     (fun v => let (o, a, r, n, e, s) := v in MnemonicOmit.i_vcmpnltpd_xo (r 0) (widen_op (o 1)));
   mkB "vcmpnltps_xo" (fun v => let (o, a, r, n, e, s) := v in MnemonicOmit32.i_vcmpnltps_xo (r 0) (o 1))
     (fun v => let (o, a, r, n, e, s) := v in MnemonicOmit.i_vcmpnltps_xo (r 0) (widen_op (o 1)));
   mkB "vcmpnltsd_xo" (fun v => let (o, a, r, n, e, s) := v in MnemonicOmit32.i_vcmpnltsd_xo (r 0) (o 1))
     (fun v => let (o, a, r, n, e, s) := v in MnemonicOmit.i_vcmpnltsd_xo (r 0) (widen_op (o 1)));
   mkB "vcmpnltss_xo" (fun v => let (o, a, r, n, e, s) := v in MnemonicOmit32.i_vcmpnltss_xo (r 0) (o 1))
     (fun v => let (o, a, r, n, e, s) := v in MnemonicOmit.i_vcmpnltss_xo (r 0) (widen_op (o 1)));
   mkB "vcmpord_spd_xo" (fun v => let (o, a, r, n, e, s) := v in MnemonicOmit32.i_vcmpord_spd_xo (r 0) (o 1))
     (fun v => let (o, a, r, n, e, s) := v in MnemonicOmit.i_vcmpord_spd_xo (r 0) (widen_op (o 1)));
   mkB "vcmpord_sps_xo" (fun v => let (o, a, r, n, e, s) := v in MnemonicOmit32.i_vcmpord_sps_xo (r 0) (o 1))
     (fun v => let (o, a, r, n, e, s) := v in MnemonicOmit.i_vcmpord_sps_xo (r 0) (widen_op (o 1)));
   mkB "vcmpord_ssd_xo" (fun v => let (o, a, r, n, e, s) := v in MnemonicOmit32.i_vcmpord_ssd_xo (r 0) (o 1))
     (fun v => let (o, a, r, n, e, s) := v in MnemonicOmit.i_vcmpord_ssd_xo (r 0) (widen_op (o 1)));
   mkB "vcmpord_sss_xo" (fun v => let (o, a, r, n, e, s) := v in MnemonicOmit32.i_vcmpord_sss_xo (r 0) (o 1))
     (fun v => let (o, a, r, n, e, s) := v in MnemonicOmit.i_vcmpord_sss_xo (r 0) (widen_op (o 1)));
   mkB "vcmpordpd_xo" (fun v => let (o, a, r, n, e, s) := v in MnemonicOmit32.i_vcmpordpd_xo (r 0) (o 1))
     (fun v => let (o, a, r, n, e, s) := v in MnemonicOmit.i_vcmpordpd_xo (r 0) (widen_op (o 1)))].
Lemma sims82_ok : Forall same sims82.
Proof. unfold sims82.
row. { unfold MnemonicOmit32.i_vcmpngtpd_xo, Mnemonic32.i_vcmpngtpd_xxo, Mnemonic32.i_vcmppd_xxoi, MnemonicOmit.i_vcmpngtpd_xo, Mnemonic.i_vcmpngtpd_xxo, Mnemonic.i_vcmppd_xxoi. row_sim. }
row. { unfold MnemonicOmit32.i_vcmpngtps_xo, Mnemonic32.i_vcmpngtps_xxo, Mnemonic32.i_vcmpps_xxoi, MnemonicOmit.i_vcmpngtps_xo, Mnemonic.i_vcmpngtps_xxo, Mnemonic.i_vcmpps_xxoi. row_sim. }
row. { unfold MnemonicOmit32.i_vcmpngtsd_xo, Mnemonic32.i_vcmpngtsd_xxo, Mnemonic32.i_vcmpsd_xxoi, MnemonicOmit.i_vcmpngtsd_xo, Mnemonic.i_vcmpngtsd_xxo, Mnemonic.i_vcmpsd_xxoi. row_sim. }
row. { unfold MnemonicOmit32.i_vcmpngtss_xo, Mnemonic32.i_vcmpngtss_xxo, Mnemonic32.i_vcmpss_xxoi, MnemonicOmit.i_vcmpngtss_xo, Mnemonic.i_vcmpngtss_xxo, Mnemonic.i_vcmpss_xxoi. row_sim. }
row. { unfold MnemonicOmit32.i_vcmpnle_uqpd_xo, Mnemonic32.i_vcmpnle_uqpd_xxo, Mnemonic32.i_vcmppd_xxoi, MnemonicOmit.i_vcmpnle_uqpd_xo, Mnemonic.i_vcmpnle_uqpd_xxo, Mnemonic.i_vcmppd_xxoi. row_sim. }
row. { unfold MnemonicOmit32.i_vcmpnle_uqps_xo, Mnemonic32.i_vcmpnle_uqps_xxo, Mnemonic32.i_vcmpps_xxoi, MnemonicOmit.i_vcmpnle_uqps_xo, Mnemonic.i_vcmpnle_uqps_xxo, Mnemonic.i_vcmpps_xxoi. row_sim. }
row. { unfold MnemonicOmit32.i_vcmpnle_uqsd_xo, Mnemonic32.i_vcmpnle_uqsd_xxo, Mnemonic32.i_vcmpsd_xxoi, MnemonicOmit.i_vcmpnle_uqsd_xo, Mnemonic.i_vcmpnle_uqsd_xxo, Mnemonic.i_vcmpsd_xxoi. row_sim. }
row. { unfold MnemonicOmit32.i_vcmpnle_uqss_xo, Mnemonic32.i_vcmpnle_uqss_xxo, Mnemonic32.i_vcmpss_xxoi, MnemonicOmit.i_vcmpnle_uqss_xo, Mnemonic.i_vcmpnle_uqss_xxo, Mnemonic.i_vcmpss_xxoi. row_sim. }
row. { unfold MnemonicOmit32.i_vcmpnlepd_xo, Mnemonic32.i_vcmpnlepd_xxo, Mnemonic32.i_vcmppd_xxoi, MnemonicOmit.i_vcmpnlepd_xo, Mnemonic.i_vcmpnlepd_xxo, Mnemonic.i_vcmppd_xxoi. row_sim. }
row. { unfold MnemonicOmit32.i_vcmpnleps_xo, Mnemonic32.i_vcmpnleps_xxo, Mnemonic32.i_vcmpps_xxoi, MnemonicOmit.i_vcmpnleps_xo, Mnemonic.i_vcmpnleps_xxo, Mnemonic.i_vcmpps_xxoi. row_sim. }
row. { unfold MnemonicOmit32.i_vcmpnlesd_xo, Mnemonic32.i_vcmpnlesd_xxo, Mnemonic32.i_vcmpsd_xxoi, MnemonicOmit.i_vcmpnlesd_xo, Mnemonic.i_vcmpnlesd_xxo, Mnemonic.i_vcmpsd_xxoi. row_sim. }
row. { unfold MnemonicOmit32.i_vcmpnless_xo, Mnemonic32.i_vcmpnless_xxo, Mnemonic32.i_vcmpss_xxoi, MnemonicOmit.i_vcmpnless_xo, Mnemonic.i_vcmpnless_xxo, Mnemonic.i_vcmpss_xxoi. row_sim. }
row. { unfold MnemonicOmit32.i_vcmpnlt_uqpd_xo, Mnemonic32.i_vcmpnlt_uqpd_xxo, Mnemonic32.i_vcmppd_xxoi, MnemonicOmit.i_vcmpnlt_uqpd_xo, Mnemonic.i_vcmpnlt_uqpd_xxo, Mnemonic.i_vcmppd_xxoi. row_sim. }
row. { unfold MnemonicOmit32.i_vcmpnlt_uqps_xo, Mnemonic32.i_vcmpnlt_uqps_xxo, Mnemonic32.i_vcmpps_xxoi, MnemonicOmit.i_vcmpnlt_uqps_xo, Mnemonic.i_vcmpnlt_uqps_xxo, Mnemonic.i_vcmpps_xxoi. row_sim. }
row. { unfold MnemonicOmit32.i_vcmpnlt_uqsd_xo, Mnemonic32.i_vcmpnlt_uqsd_xxo, Mnemonic32.i_vcmpsd_xxoi, MnemonicOmit.i_vcmpnlt_uqsd_xo, Mnemonic.i_vcmpnlt_uqsd_xxo, Mnemonic.i_vcmpsd_xxoi. row_sim. }
row. { unfold MnemonicOmit32.i_vcmpnlt_uqss_xo, Mnemonic32.i_vcmpnlt_uqss_xxo, Mnemonic32.i_vcmpss_xxoi, MnemonicOmit.i_vcmpnlt_uqss_xo, Mnemonic.i_vcmpnlt_uqss_xxo, Mnemonic.i_vcmpss_xxoi. row_sim. }
row. { unfold MnemonicOmit32.i_vcmpnltpd_xo, Mnemonic32.i_vcmpnltpd_xxo, Mnemonic32.i_vcmppd_xxoi, MnemonicOmit.i_vcmpnltpd_xo, Mnemonic.i_vcmpnltpd_xxo, Mnemonic.i_vcmppd_xxoi. row_sim. }
row. { unfold MnemonicOmit32.i_vcmpnltps_xo, Mnemonic32.i_vcmpnltps_xxo, Mnemonic32.i_vcmpps_xxoi, MnemonicOmit.i_vcmpnltps_xo, Mnemonic.i_vcmpnltps_xxo, Mnemonic.i_vcmpps_xxoi. row_sim. }
row. { unfold MnemonicOmit32.i_vcmpnltsd_xo, Mnemonic32.i_vcmpnltsd_xxo, Mnemonic32.i_vcmpsd_xxoi, MnemonicOmit.i_vcmpnltsd_xo, Mnemonic.i_vcmpnltsd_xxo, Mnemonic.i_vcmpsd_xxoi. row_sim. }
row. { unfold MnemonicOmit32.i_vcmpnltss_xo, Mnemonic32.i_vcmpnltss_xxo, Mnemonic32.i_vcmpss_xxoi, MnemonicOmit.i_vcmpnltss_xo, Mnemonic.i_vcmpnltss_xxo, Mnemonic.i_vcmpss_xxoi. row_sim. }
row. { unfold MnemonicOmit32.i_vcmpord_spd_xo, Mnemonic32.i_vcmpord_spd_xxo, Mnemonic32.i_vcmppd_xxoi, MnemonicOmit.i_vcmpord_spd_xo, Mnemonic.i_vcmpord_spd_xxo, Mnemonic.i_vcmppd_xxoi. row_sim. }
row. { unfold MnemonicOmit32.i_vcmpord_sps_xo, Mnemonic32.i_vcmpord_sps_xxo, Mnemonic32.i_vcmpps_xxoi, MnemonicOmit.i_vcmpord_sps_xo, Mnemonic.i_vcmpord_sps_xxo, Mnemonic.i_vcmpps_xxoi. row_sim. }
row. { unfold MnemonicOmit32.i_vcmpord_ssd_xo, Mnemonic32.i_vcmpord_ssd_xxo, Mnemonic32.i_vcmpsd_xxoi, MnemonicOmit.i_vcmpord_ssd_xo, Mnemonic.i_vcmpord_ssd_xxo, Mnemonic.i_vcmpsd_xxoi. row_sim. }
row. { unfold MnemonicOmit32.i_vcmpord_sss_xo, Mnemonic32.i_vcmpord_sss_xxo, Mnemonic32.i_vcmpss_xxoi, MnemonicOmit.i_vcmpord_sss_xo, Mnemonic.i_vcmpord_sss_xxo, Mnemonic.i_vcmpss_xxoi. row_sim. }
row. { unfold MnemonicOmit32.i_vcmpordpd_xo, Mnemonic32.i_vcmpordpd_xxo, Mnemonic32.i_vcmppd_xxoi, MnemonicOmit.i_vcmpordpd_xo, Mnemonic.i_vcmpordpd_xxo, Mnemonic.i_vcmppd_xxoi. row_sim. }
apply Forall_nil. Qed.
Definition sims83 : list b_entry :=
  [mkB "vcmpordps_xo" (fun v => let (o, a, r, n, e, s) := v in MnemonicOmit32.i_vcmpordps_xo (r 0) (o 1))
     (fun v => let (o, a, r, n, e, s) := v in MnemonicOmit.i_vcmpordps_xo (r 0) (widen_op (o 1)));
   mkB "vcmpordsd_xo" (fun v => let (o, a, r, n, e, s) := v in MnemonicOmit32.i_vcmpordsd_xo (r 0) (o 1))
     (fun v => let (o, a, r, n, e, s) := v in MnemonicOmit.i_vcmpordsd_xo (r 0) (widen_op (o 1)));
   mkB "vcmpordss_xo" (fun v => let (o, a, r, n, e, s) := v in MnemonicOmit32.i_vcmpordss_xo (r 0) (o 1))
     (fun v => let (o, a, r, n, e, s) := v in MnemonicOmit.i_vcmpordss_xo (r 0) (widen_op (o 1)));
   mkB "vcmppd_xoi" (fun v => let (o, a, r, n, e, s) := v in MnemonicOmit32.i_vcmppd_xoi (r 0) (o 1) (n 2))
     (fun v => let (o, a, r, n, e, s) := v in MnemonicOmit.i_vcmppd_xoi (r 0) (widen_op (o 1)) (n 2));
   mkB "vcmpps_xoi" (fun v => let (o, a, r, n, e, s) := v in MnemonicOmit32.i_vcmpps_xoi (r 0) (o 1) (n 2))
     (fun v => let (o, a, r, n, e, s) := v in MnemonicOmit.i_vcmpps_xoi (r 0) (widen_op (o 1)) (n 2));
   mkB "vcmpsd_xoi" (fun v => let (o, a, r, n, e, s) := v in MnemonicOmit32.i_vcmpsd_xoi (r 0) (o 1) (n 2))
     (fun v => let (o, a, r, n, e, s) := v in MnemonicOmit.i_vcmpsd_xoi (r 0) (widen_op (o 1)) (n 2));
   mkB "vcmpss_xoi" (fun v => let (o, a, r, n, e, s) := v in MnemonicOmit32.i_vcmpss_xoi (r 0) (o 1) (n 2))
     (fun v => let (o, a, r, n, e, s) := v in MnemonicOmit.i_vcmpss_xoi (r 0) (widen_op (o 1)) (n 2));
   mkB "vcmptrue_uspd_xo" (fun v => let (o, a, r, n, e, s) := v in MnemonicOmit32.i_vcmptrue_uspd_xo (r 0) (o 1))
     (fun v => let (o, a, r, n, e, s) := v in MnemonicOmit.i_vcmptrue_uspd_xo (r 0) (widen_op (o 1)));
   mkB "vcmptrue_usps_xo" (fun v => let (o, a, r, n, e, s) := v in MnemonicOmit32.i_vcmptrue_usps_xo (r 0) (o 1))
     (fun v => let (o, a, r, n, e, s) := v in MnemonicOmit.i_vcmptrue_usps_xo (r 0) (widen_op (o 1)));
   mkB "vcmptrue_ussd_xo" (fun v => let (o, a, r, n, e, s) := v in MnemonicOmit32.i_vcmptrue_ussd_xo (r 0) (o 1))
     (fun v => let (o, a, r, n, e, s) := v in MnemonicOmit.i_vcmptrue_ussd_xo (r 0) (widen_op (o 1)));
   mkB "vcmptrue_usss_xo" (fun v => let (o, a, r, n, e, s) := v in MnemonicOmit32.i_vcmptrue_usss_xo (r 0) (o 1))
     (fun v => let (o, a, r, n, e, s) := v in MnemonicOmit.i_vcmptrue_usss_xo (r 0) (widen_op (o 1)));
   mkB "vcmptruepd_xo" (fun v => let (o, a, r, n, e, s) := v in MnemonicOmit32.i_vcmptruepd_xo (r 0) (o 1))
     (fun v => let (o, a, r, n, e, s) := v in MnemonicOmit.i_vcmptruepd_xo (r 0) (widen_op (o 1)));
   mkB "vcmptrueps_xo" (fun v => let (o, a, r, n, e, s) := v in MnemonicOmit32.i_vcmptrueps_xo (r 0) (o 1))
     (fun v => let (o, a, r, n, e, s) := v in MnemonicOmit.i_vcmptrueps_xo (r 0) (widen_op (o 1)));
   mkB "vcmptruesd_xo" (fun v => let (o, a, r, n, e, s) := v in MnemonicOmit32.i_vcmptruesd_xo (r 0) (o 1))
     (fun v => let (o, a, r, n, e, s) := v in MnemonicOmit.i_vcmptruesd_xo (r 0) (widen_op (o 1)));
   mkB "vcmptruess_xo" (fun v => let (o, a, r, n, e, s) := v in MnemonicOmit32.i_vcmptruess_xo (r 0) (o 1))
     (fun v => let (o, a, r, n, e, s) := v in MnemonicOmit.i_vcmptruess_xo (r 0) (widen_op (o 1)));
   mkB "vcmpunord_spd_xo" (fun v => let (o, a, r, n, e, s) := v in MnemonicOmit32.i_vcmpunord_spd_xo (r 0) (o 1))
     (fun v => let (o, a, r, n, e, s) := v in MnemonicOmit.i_vcmpunord_spd_xo (r 0) (widen_op (o 1)));
   mkB "vcmpunord_sps_xo" (fun v => let (o, a, r, n, e, s) := v in MnemonicOmit32.i_vcmpunord_sps_xo (r 0) (o 1))
     (fun v => let (o, a, r, n, e, s) := v in MnemonicOmit.i_vcmpunord_sps_xo (r 0) (widen_op (o 1)));
   mkB "vcmpunord_ssd_xo" (fun v => let (o, a, r, n, e, s) := v in MnemonicOmit32.i_vcmpunord_ssd_xo (r 0) (o 1))
     (fun v => let (o, a, r, n, e, s) := v in MnemonicOmit.i_vcmpunord_ssd_xo (r 0) (widen_op (o 1)));
   mkB "vcmpunord_sss_xo" (fun v => let (o, a, r, n, e, s) := v in MnemonicOmit32.i_vcmpunord_sss_xo (r 0) (o 1))
     (fun v => let (o, a, r, n, e, s) := v in MnemonicOmit.i_vcmpunord_sss_xo (r 0) (widen_op (o 1)));
   mkB "vcmpunordpd_xo" (fun v => let (o, a, r, n, e, s) := v in MnemonicOmit32.i_vcmpunordpd_xo (r 0) (o 1))
     (fun v => let (o, a, r, n, e, s) := v in MnemonicOmit.i_vcmpunordpd_xo (r 0) (widen_op (o 1)));
   mkB "vcmpunordps_xo" (fun v => let (o, a, r, n, e, s) := v in MnemonicOmit32.i_vcmpunordps_xo (r 0) (o 1))
     (fun v => let (o, a, r, n, e, s) := v in MnemonicOmit.i_vcmpunordps_xo (r 0) (widen_op (o 1)));
   mkB "vcmpunordsd_xo" (fun v => let (o, a, r, n, e, s) := v in MnemonicOmit32.i_vcmpunordsd_xo (r 0) (o 1))
     (fun v => let (o, a, r, n, e, s) := v in MnemonicOmit.i_vcmpunordsd_xo (r 0) (widen_op (o 1)));
   mkB "vcmpunordss_xo" (fun v => let (o, a, r, n, e, s) := v in MnemonicOmit32.i_vcmpunordss_xo (r 0) (o 1))
     (fun v => let (o, a, r, n, e, s) := v in MnemonicOmit.i_vcmpunordss_xo (r 0) (widen_op (o 1)));
   mkB "vcvtsd2ss_xo" (fun v => let (o, a, r, n, e, s) := v in MnemonicOmit32.i_vcvtsd2ss_xo (r 0) (o 1))
     (fun v => let (o, a, r, n, e, s) := v in MnemonicOmit.i_vcvtsd2ss_xo (r 0) (widen_op (o 1)));
   mkB "vcvtsi2sd_xo" (fun v => let (o, a, r, n, e, s) := v in MnemonicOmit32.i_vcvtsi2sd_xo (r 0) (o 1))
     (fun v => let (o, a, r, n, e, s) := v in MnemonicOmit.i_vcvtsi2sd_xo (r 0) (widen_op (o 1)))].
Lemma sims83_ok : Forall same sims83.
Proof. unfold sims83.
row. { unfold MnemonicOmit32.i_vcmpordps_xo, Mnemonic32.i_vcmpordps_xxo, Mnemonic32.i_vcmpps_xxoi, MnemonicOmit.i_vcmpordps_xo, Mnemonic.i_vcmpordps_xxo, Mnemonic.i_vcmpps_xxoi. row_sim. }
row. { unfold MnemonicOmit32.i_vcmpordsd_xo, Mnemonic32.i_vcmpordsd_xxo, Mnemonic32.i_vcmpsd_xxoi, MnemonicOmit.i_vcmpordsd_xo, Mnemonic.i_vcmpordsd_xxo, Mnemonic.i_vcmpsd_xxoi. row_sim. }
row. { unfold MnemonicOmit32.i_vcmpordss_xo, Mnemonic32.i_vcmpordss_xxo, Mnemonic32.i_vcmpss_xxoi, MnemonicOmit.i_vcmpordss_xo, Mnemonic.i_vcmpordss_xxo, Mnemonic.i_vcmpss_xxoi. row_sim. }
row. { unfold MnemonicOmit32.i_vcmppd_xoi, Mnemonic32.i_vcmppd_xxoi, MnemonicOmit.i_vcmppd_xoi, Mnemonic.i_vcmppd_xxoi. row_sim. }
row. { unfold MnemonicOmit32.i_vcmpps_xoi, Mnemonic32.i_vcmpps_xxoi, MnemonicOmit.i_vcmpps_xoi, Mnemonic.i_vcmpps_xxoi. row_sim. }
row. { unfold MnemonicOmit32.i_vcmpsd_xoi, Mnemonic32.i_vcmpsd_xxoi, MnemonicOmit.i_vcmpsd_xoi, Mnemonic.i_vcmpsd_xxoi. row_sim. }
row. { unfold MnemonicOmit32.i_vcmpss_xoi, Mnemonic32.i_vcmpss_xxoi, MnemonicOmit.i_vcmpss_xoi, Mnemonic.i_vcmpss_xxoi. row_sim. }
row. { unfold MnemonicOmit32.i_vcmptrue_uspd_xo, Mnemonic32.i_vcmptrue_uspd_xxo, Mnemonic32.i_vcmppd_xxoi, MnemonicOmit.i_vcmptrue_uspd_xo, Mnemonic.i_vcmptrue_uspd_xxo, Mnemonic.i_vcmppd_xxoi. row_sim. }
row. { unfold MnemonicOmit32.i_vcmptrue_usps_xo, Mnemonic32.i_vcmptrue_usps_xxo, Mnemonic32.i_vcmpps_xxoi, MnemonicOmit.i_vcmptrue_usps_xo, Mnemonic.i_vcmptrue_usps_xxo, Mnemonic.i_vcmpps_xxoi. row_sim. }
row. { unfold MnemonicOmit32.i_vcmptrue_ussd_xo, Mnemonic32.i_vcmptrue_ussd_xxo, Mnemonic32.i_vcmpsd_xxoi, MnemonicOmit.i_vcmptrue_ussd_xo, Mnemonic.i_vcmptrue_ussd_xxo, Mnemonic.i_vcmpsd_xxoi. row_sim. }
row. { unfold MnemonicOmit32.i_vcmptrue_usss_xo, Mnemonic32.i_vcmptrue_usss_xxo, Mnemonic32.i_vcmpss_xxoi, MnemonicOmit.i_vcmptrue_usss_xo, Mnemonic.i_vcmptrue_usss_xxo, Mnemonic.i_vcmpss_xxoi. row_sim. }
row. { unfold MnemonicOmit32.i_vcmptruepd_xo, Mnemonic32.i_vcmptruepd_xxo, Mnemonic32.i_vcmppd_xxoi, MnemonicOmit.i_vcmptruepd_xo, Mnemonic.i_vcmptruepd_xxo, Mnemonic.i_vcmppd_xxoi. row_sim. }
row. { unfold MnemonicOmit32.i_vcmptrueps_xo, Mnemonic32.i_vcmptrueps_xxo, Mnemonic32.i_vcmpps_xxoi, MnemonicOmit.i_vcmptrueps_xo, Mnemonic.i_vcmptrueps_xxo, Mnemonic.i_vcmpps_xxoi. row_sim. }
row. { unfold MnemonicOmit32.i_vcmptruesd_xo, Mnemonic32.i_vcmptruesd_xxo, Mnemonic32.i_vcmpsd_xxoi, MnemonicOmit.i_vcmptruesd_xo, Mnemonic.i_vcmptruesd_xxo, Mnemonic.i_vcmpsd_xxoi. row_sim. }
row. { unfold MnemonicOmit32.i_vcmptruess_xo, Mnemonic32.i_vcmptruess_xxo, Mnemonic32.i_vcmpss_xxoi, MnemonicOmit.i_vcmptruess_xo, Mnemonic.i_vcmptruess_xxo, Mnemonic.i_vcmpss_xxoi. row_sim. }
row. { unfold MnemonicOmit32.i_vcmpunord_spd_xo, Mnemonic32.i_vcmpunord_spd_xxo, Mnemonic32.i_vcmppd_xxoi, MnemonicOmit.i_vcmpunord_spd_xo, Mnemonic.i_vcmpunord_spd_xxo, Mnemonic.i_vcmppd_xxoi. row_sim. }
row. { unfold MnemonicOmit32.i_vcmpunord_sps_xo, Mnemonic32.i_vcmpunord_sps_xxo, Mnemonic32.i_vcmpps_xxoi, MnemonicOmit.i_vcmpunord_sps_xo, Mnemonic.i_vcmpunord_sps_xxo, Mnemonic.i_vcmpps_xxoi. row_sim. }
row. { unfold MnemonicOmit32.i_vcmpunord_ssd_xo, Mnemonic32.i_vcmpunord_ssd_xxo, Mnemonic32.i_vcmpsd_xxoi, MnemonicOmit.i_vcmpunord_ssd_xo, Mnemonic.i_vcmpunord_ssd_xxo, Mnemonic.i_vcmpsd_xxoi. row_sim. }
row. { unfold MnemonicOmit32.i_vcmpunord_sss_xo, Mnemonic32.i_vcmpunord_sss_xxo, Mnemonic32.i_vcmpss_xxoi, MnemonicOmit.i_vcmpunord_sss_xo, Mnemonic.i_vcmpunord_sss_xxo, Mnemonic.i_vcmpss_xxoi. row_sim. }
row. { unfold MnemonicOmit32.i_vcmpunordpd_xo, Mnemonic32.i_vcmpunordpd_xxo, Mnemonic32.i_vcmppd_xxoi, MnemonicOmit.i_vcmpunordpd_xo, Mnemonic.i_vcmpunordpd_xxo, Mnemonic.i_vcmppd_xxoi. row_sim. }
row. { unfold MnemonicOmit32.i_vcmpunordps_xo, Mnemonic32.i_vcmpunordps_xxo, Mnemonic32.i_vcmpps_xxoi, MnemonicOmit.i_vcmpunordps_xo, Mnemonic.i_vcmpunordps_xxo, Mnemonic.i_vcmpps_xxoi. row_sim. }
row. { unfold MnemonicOmit32.i_vcmpunordsd_xo, Mnemonic32.i_vcmpunordsd_xxo, Mnemonic32.i_vcmpsd_xxoi, MnemonicOmit.i_vcmpunordsd_xo, Mnemonic.i_vcmpunordsd_xxo, Mnemonic.i_vcmpsd_xxoi. row_sim. }
row. { unfold MnemonicOmit32.i_vcmpunordss_xo, Mnemonic32.i_vcmpunordss_xxo, Mnemonic32.i_vcmpss_xxoi, MnemonicOmit.i_vcmpunordss_xo, Mnemonic.i_vcmpunordss_xxo, Mnemonic.i_vcmpss_xxoi. row_sim. }
row. { unfold MnemonicOmit32.i_vcvtsd2ss_xo, Mnemonic32.i_vcvtsd2ss_xxo, MnemonicOmit.i_vcvtsd2ss_xo, Mnemonic.i_vcvtsd2ss_xxo. row_sim. }
row. { unfold MnemonicOmit32.i_vcvtsi2sd_xo, Mnemonic32.i_vcvtsi2sd_xxo, MnemonicOmit.i_vcvtsi2sd_xo, Mnemonic.i_vcvtsi2sd_xxo. row_sim. }
apply Forall_nil. Qed.
Definition sims84 : list b_entry :=
  [mkB "vcvtsi2ss_xo" (fun v => let (o, a, r, n, e, s) := v in MnemonicOmit32.i_vcvtsi2ss_xo (r 0) (o 1))
     (fun v => let (o, a, r, n, e, s) := v in MnemonicOmit.i_vcvtsi2ss_xo (r 0) (widen_op (o 1)));
   mkB "vcvtss2sd_xo" (fun v => let (o, a, r, n, e, s) := v in MnemonicOmit32.i_vcvtss2sd_xo (r 0) (o 1))
     (fun v => let (o, a, r, n, e, s) := v in MnemonicOmit.i_vcvtss2sd_xo (r 0) (widen_op (o 1)));
   mkB "vdppd_xoi" (fun v => let (o, a, r, n, e, s) := v in MnemonicOmit32.i_vdppd_xoi (r 0) (o 1) (n 2))
     (fun v => let (o, a, r, n, e, s) := v in MnemonicOmit.i_vdppd_xoi (r 0) (widen_op (o 1)) (n 2));
   mkB "vdpps_xoi" (fun v => let (o, a, r, n, e, s) := v in MnemonicOmit32.i_vdpps_xoi (r 0) (o 1) (n 2))
     (fun v => let (o, a, r, n, e, s) := v in MnemonicOmit.i_vdpps_xoi (r 0) (widen_op (o 1)) (n 2));
   mkB "vinsertps_xoi" (fun v => let (o, a, r, n, e, s) := v in MnemonicOmit32.i_vinsertps_xoi (r 0) (o 1) (n 2))
     (fun v => let (o, a, r, n, e, s) := v in MnemonicOmit.i_vinsertps_xoi (r 0) (widen_op (o 1)) (n 2));
   mkB "vmpsadbw_xoi" (fun v => let (o, a, r, n, e, s) := v in MnemonicOmit32.i_vmpsadbw_xoi (r 0) (o 1) (n 2))
     (fun v => let (o, a, r, n, e, s) := v in MnemonicOmit.i_vmpsadbw_xoi (r 0) (widen_op (o 1)) (n 2));
   mkB "vpackssdw_xo" (fun v => let (o, a, r, n, e, s) := v in MnemonicOmit32.i_vpackssdw_xo (r 0) (o 1))
     (fun v => let (o, a, r, n, e, s) := v in MnemonicOmit.i_vpackssdw_xo (r 0) (widen_op (o 1)));
   mkB "vpacksswb_xo" (fun v => let (o, a, r, n, e, s) := v in MnemonicOmit32.i_vpacksswb_xo (r 0) (o 1))
     (fun v => let (o, a, r, n, e, s) := v in MnemonicOmit.i_vpacksswb_xo (r 0) (widen_op (o 1)));
   mkB "vpackusdw_xo" (fun v => let (o, a, r, n, e, s) := v in MnemonicOmit32.i_vpackusdw_xo (r 0) (o 1))
     (fun v => let (o, a, r, n, e, s) := v in MnemonicOmit.i_vpackusdw_xo (r 0) (widen_op (o 1)));
   mkB "vpackuswb_xo" (fun v => let (o, a, r, n, e, s) := v in MnemonicOmit32.i_vpackuswb_xo (r 0) (o 1))
     (fun v => let (o, a, r, n, e, s) := v in MnemonicOmit.i_vpackuswb_xo (r 0) (widen_op (o 1)));
   mkB "vpaddb_xo" (fun v => let (o, a, r, n, e, s) := v in MnemonicOmit32.i_vpaddb_xo (r 0) (o 1))
     (fun v => let (o, a, r, n, e, s) := v in MnemonicOmit.i_vpaddb_xo (r 0) (widen_op (o 1)));
   mkB "vpaddd_xo" (fun v => let (o, a, r, n, e, s) := v in MnemonicOmit32.i_vpaddd_xo (r 0) (o 1))
     (fun v => let (o, a, r, n, e, s) := v in MnemonicOmit.i_vpaddd_xo (r 0) (widen_op (o 1)));
   mkB "vpaddq_xo" (fun v => let (o, a, r, n, e, s) := v in MnemonicOmit32.i_vpaddq_xo (r 0) (o 1))
     (fun v => let (o, a, r, n, e, s) := v in MnemonicOmit.i_vpaddq_xo (r 0) (widen_op (o 1)));
   mkB "vpaddsb_xo" (fun v => let (o, a, r, n, e, s) := v in MnemonicOmit32.i_vpaddsb_xo (r 0) (o 1))
     (fun v => let (o, a, r, n, e, s) := v in MnemonicOmit.i_vpaddsb_xo (r 0) (widen_op (o 1)));
   mkB "vpaddsw_xo" (fun v => let (o, a, r, n, e, s) := v in MnemonicOmit32.i_vpaddsw_xo (r 0) (o 1))
     (fun v => let (o, a, r, n, e, s) := v in MnemonicOmit.i_vpaddsw_xo (r 0) (widen_op (o 1)));
   mkB "vpaddusb_xo" (fun v => let (o, a, r, n, e, s) := v in MnemonicOmit32.i_vpaddusb_xo (r 0) (o 1))
     (fun v => let (o, a, r, n, e, s) := v in MnemonicOmit.i_vpaddusb_xo (r 0) (widen_op (o 1)));
   mkB "vpaddusw_xo" (fun v => let (o, a, r, n, e, s) := v in MnemonicOmit32.i_vpaddusw_xo (r 0) (o 1))
     (fun v => let (o, a, r, n, e, s) := v in MnemonicOmit.i_vpaddusw_xo (r 0) (widen_op (o 1)));
   mkB "vpaddw_xo" (fun v => let (o, a, r, n, e, s) := v in MnemonicOmit32.i_vpaddw_xo (r 0) (o 1))
     (fun v => let (o, a, r, n, e, s) := v in MnemonicOmit.i_vpaddw_xo (r 0) (widen_op (o 1)));
   mkB "vpalignr_xoi" (fun v => let (o, a, r, n, e, s) := v in MnemonicOmit32.i_vpalignr_xoi (r 0) (o 1) (n 2))
     (fun v => let (o, a, r, n, e, s) := v in MnemonicOmit.i_vpalignr_xoi (r 0) (widen_op (o 1)) (n 2));
   mkB "vpand_xo" (fun v => let (o, a, r, n, e, s) := v in MnemonicOmit32.i_vpand_xo (r 0) (o 1))
     (fun v => let (o, a, r, n, e, s) := v in MnemonicOmit.i_vpand_xo (r 0) (widen_op (o 1)));
   mkB "vpandn_xo" (fun v => let (o, a, r, n, e, s) := v in MnemonicOmit32.i_vpandn_xo (r 0) (o 1))
     (fun v => let (o, a, r, n, e, s) := v in MnemonicOmit.i_vpandn_xo (r 0) (widen_op (o 1)));
   mkB "vpavgb_xo" (fun v => let (o, a, r, n, e, s) := v in MnemonicOmit32.i_vpavgb_xo (r 0) (o 1))
     (fun v => let (o, a, r, n, e, s) := v in MnemonicOmit.i_vpavgb_xo (r 0) (widen_op (o 1)));
   mkB "vpavgw_xo" (fun v => let (o, a, r, n, e, s) := v in MnemonicOmit32.i_vpavgw_xo (r 0) (o 1))
     (fun v => let (o, a, r, n, e, s) := v in MnemonicOmit.i_vpavgw_xo (r 0) (widen_op (o 1)));
   mkB "vpblendd_xoi" (fun v => let (o, a, r, n, e, s) := v in MnemonicOmit32.i_vpblendd_xoi (r 0) (o 1) (n 2))
     (fun v => let (o, a, r, n, e, s) := v in MnemonicOmit.i_vpblendd_xoi (r 0) (widen_op (o 1)) (n 2));
   mkB "vpblendvb_xox" (fun v => let (o, a, r, n, e, s) := v in MnemonicOmit32.i_vpblendvb_xox (r 0) (o 1) (r 2))
     (fun v => let (o, a, r, n, e, s) := v in MnemonicOmit.i_vpblendvb_xox (r 0) (widen_op (o 1)) (r 2))].
Lemma sims84_ok : Forall same sims84.
Proof. unfold sims84.
row. { unfold MnemonicOmit32.i_vcvtsi2ss_xo, Mnemonic32.i_vcvtsi2ss_xxo, MnemonicOmit.i_vcvtsi2ss_xo, Mnemonic.i_vcvtsi2ss_xxo. row_sim. }
row. { unfold MnemonicOmit32.i_vcvtss2sd_xo, Mnemonic32.i_vcvtss2sd_xxo, MnemonicOmit.i_vcvtss2sd_xo, Mnemonic.i_vcvtss2sd_xxo. row_sim. }
row. { unfold MnemonicOmit32.i_vdppd_xoi, Mnemonic32.i_vdppd_xxoi, MnemonicOmit.i_vdppd_xoi, Mnemonic.i_vdppd_xxoi. row_sim. }
row. { unfold MnemonicOmit32.i_vdpps_xoi, Mnemonic32.i_vdpps_xxoi, MnemonicOmit.i_vdpps_xoi, Mnemonic.i_vdpps_xxoi. row_sim. }
row. { unfold MnemonicOmit32.i_vinsertps_xoi, Mnemonic32.i_vinsertps_xxoi, MnemonicOmit.i_vinsertps_xoi, Mnemonic.i_vinsertps_xxoi. row_sim. }
row. { unfold MnemonicOmit32.i_vmpsadbw_xoi, MnemonicAvx32.i_vmpsadbw_xxoip, MnemonicOmit.i_vmpsadbw_xoi, MnemonicAvx.i_vmpsadbw_xxoip. row_sim. }
row. { unfold MnemonicOmit32.i_vpackssdw_xo, Mnemonic32.i_vpackssdw_xxo, MnemonicOmit.i_vpackssdw_xo, Mnemonic.i_vpackssdw_xxo. row_sim. }
row. { unfold MnemonicOmit32.i_vpacksswb_xo, Mnemonic32.i_vpacksswb_xxo, MnemonicOmit.i_vpacksswb_xo, Mnemonic.i_vpacksswb_xxo. row_sim. }
row. { unfold MnemonicOmit32.i_vpackusdw_xo, Mnemonic32.i_vpackusdw_xxo, MnemonicOmit.i_vpackusdw_xo, Mnemonic.i_vpackusdw_xxo. row_sim. }
row. { unfold MnemonicOmit32.i_vpackuswb_xo, Mnemonic32.i_vpackuswb_xxo, MnemonicOmit.i_vpackuswb_xo, Mnemonic.i_vpackuswb_xxo. row_sim. }
row. { unfold MnemonicOmit32.i_vpaddb_xo, Mnemonic32.i_vpaddb_xxo, MnemonicOmit.i_vpaddb_xo, Mnemonic.i_vpaddb_xxo. row_sim. }
row. { unfold MnemonicOmit32.i_vpaddd_xo, Mnemonic32.i_vpaddd_xxo, MnemonicOmit.i_vpaddd_xo, Mnemonic.i_vpaddd_xxo. row_sim. }
row. { unfold MnemonicOmit32.i_vpaddq_xo, Mnemonic32.i_vpaddq_xxo, MnemonicOmit.i_vpaddq_xo, Mnemonic.i_vpaddq_xxo. row_sim. }
row. { unfold MnemonicOmit32.i_vpaddsb_xo, Mnemonic32.i_vpaddsb_xxo, MnemonicOmit.i_vpaddsb_xo, Mnemonic.i_vpaddsb_xxo. row_sim. }
row. { unfold MnemonicOmit32.i_vpaddsw_xo, Mnemonic32.i_vpaddsw_xxo, MnemonicOmit.i_vpaddsw_xo, Mnemonic.i_vpaddsw_xxo. row_sim. }
row. { unfold MnemonicOmit32.i_vpaddusb_xo, Mnemonic32.i_vpaddusb_xxo, MnemonicOmit.i_vpaddusb_xo, Mnemonic.i_vpaddusb_xxo. row_sim. }
row. { unfold MnemonicOmit32.i_vpaddusw_xo, Mnemonic32.i_vpaddusw_xxo, MnemonicOmit.i_vpaddusw_xo, Mnemonic.i_vpaddusw_xxo. row_sim. }
row. { unfold MnemonicOmit32.i_vpaddw_xo, Mnemonic32.i_vpaddw_xxo, MnemonicOmit.i_vpaddw_xo, Mnemonic.i_vpaddw_xxo. row_sim. }
row. { unfold MnemonicOmit32.i_vpalignr_xoi, Mnemonic32.i_vpalignr_xxoi, MnemonicOmit.i_vpalignr_xoi, Mnemonic.i_vpalignr_xxoi. row_sim. }
row. { unfold MnemonicOmit32.i_vpand_xo, Mnemonic32.i_vpand_xxo, MnemonicOmit.i_vpand_xo, Mnemonic.i_vpand_xxo. row_sim. }
row. { unfold MnemonicOmit32.i_vpandn_xo, Mnemonic32.i_vpandn_xxo, MnemonicOmit.i_vpandn_xo, Mnemonic.i_vpandn_xxo. row_sim. }
row. { unfold MnemonicOmit32.i_vpavgb_xo, Mnemonic32.i_vpavgb_xxo, MnemonicOmit.i_vpavgb_xo, Mnemonic.i_vpavgb_xxo. row_sim. }
row. { unfold MnemonicOmit32.i_vpavgw_xo, Mnemonic32.i_vpavgw_xxo, MnemonicOmit.i_vpavgw_xo, Mnemonic.i_vpavgw_xxo. row_sim. }
row. { unfold MnemonicOmit32.i_vpblendd_xoi, Mnemonic32.i_vpblendd_xxoi, MnemonicOmit.i_vpblendd_xoi, Mnemonic.i_vpblendd_xxoi. row_sim. }
row. { unfold MnemonicOmit32.i_vpblendvb_xox, Mnemonic32.i_vpblendvb_xxox, MnemonicOmit.i_vpblendvb_xox, Mnemonic.i_vpblendvb_xxox. row_sim. }
apply Forall_nil. Qed.
Definition sims85 : list b_entry :=
  [mkB "vpblendw_xoi" (fun v => let (o, a, r, n, e, s) := v in MnemonicOmit32.i_vpblendw_xoi (r 0) (o 1) (n 2))
     (fun v => let (o, a, r, n, e, s) := v in MnemonicOmit.i_vpblendw_xoi (r 0) (widen_op (o 1)) (n 2));
   mkB "vpclmulqdq_xoi" (fun v => let (o, a, r, n, e, s) := v in MnemonicOmit32.i_vpclmulqdq_xoi (r 0) (o 1) (n 2))
     (fun v => let (o, a, r, n, e, s) := v in MnemonicOmit.i_vpclmulqdq_xoi (r 0) (widen_op (o 1)) (n 2));
   mkB "vpcmpeqb_xo" (fun v => let (o, a, r, n, e, s) := v in MnemonicOmit32.i_vpcmpeqb_xo (r 0) (o 1))
     (fun v => let (o, a, r, n, e, s) := v in MnemonicOmit.i_vpcmpeqb_xo (r 0) (widen_op (o 1)));
   mkB "vpcmpeqd_xo" (fun v => let (o, a, r, n, e, s) := v in MnemonicOmit32.i_vpcmpeqd_xo (r 0) (o 1))
     (fun v => let (o, a, r, n, e, s) := v in MnemonicOmit.i_vpcmpeqd_xo (r 0) (widen_op (o 1)));
   mkB "vpcmpeqq_xo" (fun v => let (o, a, r, n, e, s) := v in MnemonicOmit32.i_vpcmpeqq_xo (r 0) (o 1))
     (fun v => let (o, a, r, n, e, s) := v in MnemonicOmit.i_vpcmpeqq_xo (r 0) (widen_op (o 1)));
   mkB "vpcmpeqw_xo" (fun v => let (o, a, r, n, e, s) := v in MnemonicOmit32.i_vpcmpeqw_xo (r 0) (o 1))
     (fun v => let (o, a, r, n, e, s) := v in MnemonicOmit.i_vpcmpeqw_xo (r 0) (widen_op (o 1)));
   mkB "vpcmpgtb_xo" (fun v => let (o, a, r, n, e, s) := v in MnemonicOmit32.i_vpcmpgtb_xo (r 0) (o 1))
     (fun v => let (o, a, r, n, e, s) := v in MnemonicOmit.i_vpcmpgtb_xo (r 0) (widen_op (o 1)));
   mkB "vpcmpgtd_xo" (fun v => let (o, a, r, n, e, s) := v in MnemonicOmit32.i_vpcmpgtd_xo (r 0) (o 1))
     (fun v => let (o, a, r, n, e, s) := v in MnemonicOmit.i_vpcmpgtd_xo (r 0) (widen_op (o 1)));
   mkB "vpcmpgtq_xo" (fun v => let (o, a, r, n, e, s) := v in MnemonicOmit32.i_vpcmpgtq_xo (r 0) (o 1))
     (fun v => let (o, a, r, n, e, s) := v in MnemonicOmit.i_vpcmpgtq_xo (r 0) (widen_op (o 1)));
   mkB "vpcmpgtw_xo" (fun v => let (o, a, r, n, e, s) := v in MnemonicOmit32.i_vpcmpgtw_xo (r 0) (o 1))
     (fun v => let (o, a, r, n, e, s) := v in MnemonicOmit.i_vpcmpgtw_xo (r 0) (widen_op (o 1)));
   mkB "vphaddd_xo" (fun v => let (o, a, r, n, e, s) := v in MnemonicOmit32.i_vphaddd_xo (r 0) (o 1))
     (fun v => let (o, a, r, n, e, s) := v in MnemonicOmit.i_vphaddd_xo (r 0) (widen_op (o 1)));
   mkB "vphaddsw_xo" (fun v => let (o, a, r, n, e, s) := v in MnemonicOmit32.i_vphaddsw_xo (r 0) (o 1))
     (fun v => let (o, a, r, n, e, s) := v in MnemonicOmit.i_vphaddsw_xo (r 0) (widen_op (o 1)));
   mkB "vphaddw_xo" (fun v => let (o, a, r, n, e, s) := v in MnemonicOmit32.i_vphaddw_xo (r 0) (o 1))
     (fun v => let (o, a, r, n, e, s) := v in MnemonicOmit.i_vphaddw_xo (r 0) (widen_op (o 1)));
   mkB "vphsubd_xo" (fun v => let (o, a, r, n, e, s) := v in MnemonicOmit32.i_vphsubd_xo (r 0) (o 1))
     (fun v => let (o, a, r, n, e, s) := v in MnemonicOmit.i_vphsubd_xo (r 0) (widen_op (o 1)));
   mkB "vphsubsw_xo" (fun v => let (o, a, r, n, e, s) := v in MnemonicOmit32.i_vphsubsw_xo (r 0) (o 1))
     (fun v => let (o, a, r, n, e, s) := v in MnemonicOmit.i_vphsubsw_xo (r 0) (widen_op (o 1)));
   mkB "vphsubw_xo" (fun v => let (o, a, r, n, e, s) := v in MnemonicOmit32.i_vphsubw_xo (r 0) (o 1))
     (fun v => let (o, a, r, n, e, s) := v in MnemonicOmit.i_vphsubw_xo (r 0) (widen_op (o 1)));
   mkB "vpinsrb_xoi" (fun v => let (o, a, r, n, e, s) := v in MnemonicOmit32.i_vpinsrb_xoi (r 0) (o 1) (n 2))
     (fun v => let (o, a, r, n, e, s) := v in MnemonicOmit.i_vpinsrb_xoi (r 0) (widen_op (o 1)) (n 2));
   mkB "vpinsrd_xoi" (fun v => let (o, a, r, n, e, s) := v in MnemonicOmit32.i_vpinsrd_xoi (r 0) (o 1) (n 2))
     (fun v => let (o, a, r, n, e, s) := v in MnemonicOmit.i_vpinsrd_xoi (r 0) (widen_op (o 1)) (n 2));
   mkB "vpinsrq_xoi" (fun v => let (o, a, r, n, e, s) := v in MnemonicOmit32.i_vpinsrq_xoi (r 0) (o 1) (n 2))
     (fun v => let (o, a, r, n, e, s) := v in MnemonicOmit.i_vpinsrq_xoi (r 0) (widen_op (o 1)) (n 2));
   mkB "vpinsrw_xoi" (fun v => let (o, a, r, n, e, s) := v in MnemonicOmit32.i_vpinsrw_xoi (r 0) (o 1) (n 2))
     (fun v => let (o, a, r, n, e, s) := v in MnemonicOmit.i_vpinsrw_xoi (r 0) (widen_op (o 1)) (n 2));
   mkB "vpmaddubsw_xo" (fun v => let (o, a, r, n, e, s) := v in MnemonicOmit32.i_vpmaddubsw_xo (r 0) (o 1))
     (fun v => let (o, a, r, n, e, s) := v in MnemonicOmit.i_vpmaddubsw_xo (r 0) (widen_op (o 1)));
   mkB "vpmaddwd_xo" (fun v => let (o, a, r, n, e, s) := v in MnemonicOmit32.i_vpmaddwd_xo (r 0) (o 1))
     (fun v => let (o, a, r, n, e, s) := v in MnemonicOmit.i_vpmaddwd_xo (r 0) (widen_op (o 1)));
   mkB "vpmaxsb_xo" (fun v => let (o, a, r, n, e, s) := v in MnemonicOmit32.i_vpmaxsb_xo (r 0) (o 1))
     (fun v => let (o, a, r, n, e, s) := v in MnemonicOmit.i_vpmaxsb_xo (r 0) (widen_op (o 1)));
   mkB "vpmaxsd_xo" (fun v => let (o, a, r, n, e, s) := v in MnemonicOmit32.i_vpmaxsd_xo (r 0) (o 1))
     (fun v => let (o, a, r, n, e, s) := v in MnemonicOmit.i_vpmaxsd_xo (r 0) (widen_op (o 1)));
   mkB "vpmaxsw_xo" (fun v => let (o, a, r, n, e, s) := v in MnemonicOmit32.i_vpmaxsw_xo (r 0) (o 1))
     (fun v => let (o, a, r, n, e, s) := v in MnemonicOmit.i_vpmaxsw_xo (r 0) (widen_op (o 1)))].
Lemma sims85_ok : Forall same sims85.
Proof. unfold sims85.
row. { unfold MnemonicOmit32.i_vpblendw_xoi, Mnemonic32.i_vpblendw_xxoi, MnemonicOmit.i_vpblendw_xoi, Mnemonic.i_vpblendw_xxoi. row_sim. }
row. { unfold MnemonicOmit32.i_vpclmulqdq_xoi, Mnemonic32.i_vpclmulqdq_xxoi, MnemonicOmit.i_vpclmulqdq_xoi, Mnemonic.i_vpclmulqdq_xxoi. row_sim. }
row. { unfold MnemonicOmit32.i_vpcmpeqb_xo, Mnemonic32.i_vpcmpeqb_xxo, MnemonicOmit.i_vpcmpeqb_xo, Mnemonic.i_vpcmpeqb_xxo. row_sim. }
row. { unfold MnemonicOmit32.i_vpcmpeqd_xo, Mnemonic32.i_vpcmpeqd_xxo, MnemonicOmit.i_vpcmpeqd_xo, Mnemonic.i_vpcmpeqd_xxo. row_sim. }
row. { unfold MnemonicOmit32.i_vpcmpeqq_xo, Mnemonic32.i_vpcmpeqq_xxo, MnemonicOmit.i_vpcmpeqq_xo, Mnemonic.i_vpcmpeqq_xxo. row_sim. }
row. { unfold MnemonicOmit32.i_vpcmpeqw_xo, Mnemonic32.i_vpcmpeqw_xxo, MnemonicOmit.i_vpcmpeqw_xo, Mnemonic.i_vpcmpeqw_xxo. row_sim. }
row. { unfold MnemonicOmit32.i_vpcmpgtb_xo, Mnemonic32.i_vpcmpgtb_xxo, MnemonicOmit.i_vpcmpgtb_xo, Mnemonic.i_vpcmpgtb_xxo. row_sim. }
row. { unfold MnemonicOmit32.i_vpcmpgtd_xo, Mnemonic32.i_vpcmpgtd_xxo, MnemonicOmit.i_vpcmpgtd_xo, Mnemonic.i_vpcmpgtd_xxo. row_sim. }
row. { unfold MnemonicOmit32.i_vpcmpgtq_xo, Mnemonic32.i_vpcmpgtq_xxo, MnemonicOmit.i_vpcmpgtq_xo, Mnemonic.i_vpcmpgtq_xxo. row_sim. }
row. { unfold MnemonicOmit32.i_vpcmpgtw_xo, Mnemonic32.i_vpcmpgtw_xxo, MnemonicOmit.i_vpcmpgtw_xo, Mnemonic.i_vpcmpgtw_xxo. row_sim. }
row. { unfold MnemonicOmit32.i_vphaddd_xo, Mnemonic32.i_vphaddd_xxo, MnemonicOmit.i_vphaddd_xo, Mnemonic.i_vphaddd_xxo. row_sim. }
row. { unfold MnemonicOmit32.i_vphaddsw_xo, Mnemonic32.i_vphaddsw_xxo, MnemonicOmit.i_vphaddsw_xo, Mnemonic.i_vphaddsw_xxo. row_sim. }
row. { unfold MnemonicOmit32.i_vphaddw_xo, Mnemonic32.i_vphaddw_xxo, MnemonicOmit.i_vphaddw_xo, Mnemonic.i_vphaddw_xxo. row_sim. }
row. { unfold MnemonicOmit32.i_vphsubd_xo, Mnemonic32.i_vphsubd_xxo, MnemonicOmit.i_vphsubd_xo, Mnemonic.i_vphsubd_xxo. row_sim. }
row. { unfold MnemonicOmit32.i_vphsubsw_xo, Mnemonic32.i_vphsubsw_xxo, MnemonicOmit.i_vphsubsw_xo, Mnemonic.i_vphsubsw_xxo. row_sim. }
row. { unfold MnemonicOmit32.i_vphsubw_xo, Mnemonic32.i_vphsubw_xxo, MnemonicOmit.i_vphsubw_xo, Mnemonic.i_vphsubw_xxo. row_sim. }
row. { unfold MnemonicOmit32.i_vpinsrb_xoi, Mnemonic32.i_vpinsrb_xxoi, MnemonicOmit.i_vpinsrb_xoi, Mnemonic.i_vpinsrb_xxoi. row_sim. }
row. { unfold MnemonicOmit32.i_vpinsrd_xoi, Mnemonic32.i_vpinsrd_xxoi, MnemonicOmit.i_vpinsrd_xoi, Mnemonic.i_vpinsrd_xxoi. row_sim. }
row. { unfold MnemonicOmit32.i_vpinsrq_xoi, Mnemonic32.i_vpinsrq_xxoi, MnemonicOmit.i_vpinsrq_xoi, Mnemonic.i_vpinsrq_xxoi. row_sim. }
row. { unfold MnemonicOmit32.i_vpinsrw_xoi, Mnemonic32.i_vpinsrw_xxoi, MnemonicOmit.i_vpinsrw_xoi, Mnemonic.i_vpinsrw_xxoi. row_sim. }
row. { unfold MnemonicOmit32.i_vpmaddubsw_xo, Mnemonic32.i_vpmaddubsw_xxo, MnemonicOmit.i_vpmaddubsw_xo, Mnemonic.i_vpmaddubsw_xxo. row_sim. }
row. { unfold MnemonicOmit32.i_vpmaddwd_xo, Mnemonic32.i_vpmaddwd_xxo, MnemonicOmit.i_vpmaddwd_xo, Mnemonic.i_vpmaddwd_xxo. row_sim. }
row. { unfold MnemonicOmit32.i_vpmaxsb_xo, Mnemonic32.i_vpmaxsb_xxo, MnemonicOmit.i_vpmaxsb_xo, Mnemonic.i_vpmaxsb_xxo. row_sim. }
row. { unfold MnemonicOmit32.i_vpmaxsd_xo, Mnemonic32.i_vpmaxsd_xxo, MnemonicOmit.i_vpmaxsd_xo, Mnemonic.i_vpmaxsd_xxo. row_sim. }
row. { unfold MnemonicOmit32.i_vpmaxsw_xo, Mnemonic32.i_vpmaxsw_xxo, MnemonicOmit.i_vpmaxsw_xo, Mnemonic.i_vpmaxsw_xxo. row_sim. }
apply Forall_nil. Qed.
Definition sims86 : list b_entry :=
  [mkB "vpmaxub_xo" (fun v => let (o, a, r, n, e, s) := v in MnemonicOmit32.i_vpmaxub_xo (r 0) (o 1))
     (fun v => let (o, a, r, n, e, s) := v in MnemonicOmit.i_vpmaxub_xo (r 0) (widen_op (o 1)));
   mkB "vpmaxud_xo" (fun v => let (o, a, r, n, e, s) := v in MnemonicOmit32.i_vpmaxud_xo (r 0) (o 1))
     (fun v => let (o, a, r, n, e, s) := v in MnemonicOmit.i_vpmaxud_xo (r 0) (widen_op (o 1)));
   mkB "vpmaxuw_xo" (fun v => let (o, a, r, n, e, s) := v in MnemonicOmit32.i_vpmaxuw_xo (r 0) (o 1))
     (fun v => let (o, a, r, n, e, s) := v in MnemonicOmit.i_vpmaxuw_xo (r 0) (widen_op (o 1)));
   mkB "vpminsb_xo" (fun v => let (o, a, r, n, e, s) := v in MnemonicOmit32.i_vpminsb_xo (r 0) (o 1))
     (fun v => let (o, a, r, n, e, s) := v in MnemonicOmit.i_vpminsb_xo (r 0) (widen_op (o 1)));
   mkB "vpminsd_xo" (fun v => let (o, a, r, n, e, s) := v in MnemonicOmit32.i_vpminsd_xo (r 0) (o 1))
     (fun v => let (o, a, r, n, e, s) := v in MnemonicOmit.i_vpminsd_xo (r 0) (widen_op (o 1)));
   mkB "vpminsw_xo" (fun v => let (o, a, r, n, e, s) := v in MnemonicOmit32.i_vpminsw_xo (r 0) (o 1))
     (fun v => let (o, a, r, n, e, s) := v in MnemonicOmit.i_vpminsw_xo (r 0) (widen_op (o 1)));
   mkB "vpminub_xo" (fun v => let (o, a, r, n, e, s) := v in MnemonicOmit32.i_vpminub_xo (r 0) (o 1))
     (fun v => let (o, a, r, n, e, s) := v in MnemonicOmit.i_vpminub_xo (r 0) (widen_op (o 1)));
   mkB "vpminud_xo" (fun v => let (o, a, r, n, e, s) := v in MnemonicOmit32.i_vpminud_xo (r 0) (o 1))
     (fun v => let (o, a, r, n, e, s) := v in MnemonicOmit.i_vpminud_xo (r 0) (widen_op (o 1)));
   mkB "vpminuw_xo" (fun v => let (o, a, r, n, e, s) := v in MnemonicOmit32.i_vpminuw_xo (r 0) (o 1))
     (fun v => let (o, a, r, n, e, s) := v in MnemonicOmit.i_vpminuw_xo (r 0) (widen_op (o 1)));
   mkB "vpmuldq_xo" (fun v => let (o, a, r, n, e, s) := v in MnemonicOmit32.i_vpmuldq_xo (r 0) (o 1))
     (fun v => let (o, a, r, n, e, s) := v in MnemonicOmit.i_vpmuldq_xo (r 0) (widen_op (o 1)));
   mkB "vpmulhrsw_xo" (fun v => let (o, a, r, n, e, s) := v in MnemonicOmit32.i_vpmulhrsw_xo (r 0) (o 1))
     (fun v => let (o, a, r, n, e, s) := v in MnemonicOmit.i_vpmulhrsw_xo (r 0) (widen_op (o 1)));
   mkB "vpmulhuw_xo" (fun v => let (o, a, r, n, e, s) := v in MnemonicOmit32.i_vpmulhuw_xo (r 0) (o 1))
     (fun v => let (o, a, r, n, e, s) := v in MnemonicOmit.i_vpmulhuw_xo (r 0) (widen_op (o 1)));
   mkB "vpmulhw_xo" (fun v => let (o, a, r, n, e, s) := v in MnemonicOmit32.i_vpmulhw_xo (r 0) (o 1))
     (fun v => let (o, a, r, n, e, s) := v in MnemonicOmit.i_vpmulhw_xo (r 0) (widen_op (o 1)));
   mkB "vpmulld_xo" (fun v => let (o, a, r, n, e, s) := v in MnemonicOmit32.i_vpmulld_xo (r 0) (o 1))
     (fun v => let (o, a, r, n, e, s) := v in MnemonicOmit.i_vpmulld_xo (r 0) (widen_op (o 1)));
   mkB "vpmullw_xo" (fun v => let (o, a, r, n, e, s) := v in MnemonicOmit32.i_vpmullw_xo (r 0) (o 1))
     (fun v => let (o, a, r, n, e, s) := v in MnemonicOmit.i_vpmullw_xo (r 0) (widen_op (o 1)));
   mkB "vpmuludq_xo" (fun v => let (o, a, r, n, e, s) := v in MnemonicOmit32.i_vpmuludq_xo (r 0) (o 1))
     (fun v => let (o, a, r, n, e, s) := v in MnemonicOmit.i_vpmuludq_xo (r 0) (widen_op (o 1)));
   mkB "vpor_xo" (fun v => let (o, a, r, n, e, s) := v in MnemonicOmit32.i_vpor_xo (r 0) (o 1))
     (fun v => let (o, a, r, n, e, s) := v in MnemonicOmit.i_vpor_xo (r 0) (widen_op (o 1)));
   mkB "vpsadbw_xo" (fun v => let (o, a, r, n, e, s) := v in MnemonicOmit32.i_vpsadbw_xo (r 0) (o 1))
     (fun v => let (o, a, r, n, e, s) := v in MnemonicOmit.i_vpsadbw_xo (r 0) (widen_op (o 1)));
   mkB "vpsignb_xo" (fun v => let (o, a, r, n, e, s) := v in MnemonicOmit32.i_vpsignb_xo (r 0) (o 1))
     (fun v => let (o, a, r, n, e, s) := v in MnemonicOmit.i_vpsignb_xo (r 0) (widen_op (o 1)));
   mkB "vpsignd_xo" (fun v => let (o, a, r, n, e, s) := v in MnemonicOmit32.i_vpsignd_xo (r 0) (o 1))
     (fun v => let (o, a, r, n, e, s) := v in MnemonicOmit.i_vpsignd_xo (r 0) (widen_op (o 1)));
   mkB "vpsignw_xo" (fun v => let (o, a, r, n, e, s) := v in MnemonicOmit32.i_vpsignw_xo (r 0) (o 1))
     (fun v => let (o, a, r, n, e, s) := v in MnemonicOmit.i_vpsignw_xo (r 0) (widen_op (o 1)));
   mkB "vpslld_xo" (fun v => let (o, a, r, n, e, s) := v in MnemonicOmit32.i_vpslld_xo (r 0) (o 1))
     (fun v => let (o, a, r, n, e, s) := v in MnemonicOmit.i_vpslld_xo (r 0) (widen_op (o 1)));
   mkB "vpslld_xi" (fun v => let (o, a, r, n, e, s) := v in MnemonicOmit32.i_vpslld_xi (r 0) (n 1))
     (fun v => let (o, a, r, n, e, s) := v in MnemonicOmit.i_vpslld_xi (r 0) (n 1));
   mkB "vpslldq_xi" (fun v => let (o, a, r, n, e, s) := v in MnemonicOmit32.i_vpslldq_xi (r 0) (n 1))
     (fun v => let (o, a, r, n, e, s) := v in MnemonicOmit.i_vpslldq_xi (r 0) (n 1));
   mkB "vpsllq_xo" (fun v => let (o, a, r, n, e, s) := v in MnemonicOmit32.i_vpsllq_xo (r 0) (o 1))
     (fun v => let (o, a, r, n, e, s) := v in MnemonicOmit.i_vpsllq_xo (r 0) (widen_op (o 1)))].
Lemma sims86_ok : Forall same sims86.
Proof. unfold sims86.
row. { unfold MnemonicOmit32.i_vpmaxub_xo, Mnemonic32.i_vpmaxub_xxo, MnemonicOmit.i_vpmaxub_xo, Mnemonic.i_vpmaxub_xxo. row_sim. }
row. { unfold MnemonicOmit32.i_vpmaxud_xo, Mnemonic32.i_vpmaxud_xxo, MnemonicOmit.i_vpmaxud_xo, Mnemonic.i_vpmaxud_xxo. row_sim. }
row. { unfold MnemonicOmit32.i_vpmaxuw_xo, Mnemonic32.i_vpmaxuw_xxo, MnemonicOmit.i_vpmaxuw_xo, Mnemonic.i_vpmaxuw_xxo. row_sim. }
row. { unfold MnemonicOmit32.i_vpminsb_xo, Mnemonic32.i_vpminsb_xxo, MnemonicOmit.i_vpminsb_xo, Mnemonic.i_vpminsb_xxo. row_sim. }
row. { unfold MnemonicOmit32.i_vpminsd_xo, Mnemonic32.i_vpminsd_xxo, MnemonicOmit.i_vpminsd_xo, Mnemonic.i_vpminsd_xxo. row_sim. }
row. { unfold MnemonicOmit32.i_vpminsw_xo, Mnemonic32.i_vpminsw_xxo, MnemonicOmit.i_vpminsw_xo, Mnemonic.i_vpminsw_xxo. row_sim. }
row. { unfold MnemonicOmit32.i_vpminub_xo, Mnemonic32.i_vpminub_xxo, MnemonicOmit.i_vpminub_xo, Mnemonic.i_vpminub_xxo. row_sim. }
row. { unfold MnemonicOmit32.i_vpminud_xo, Mnemonic32.i_vpminud_xxo, MnemonicOmit.i_vpminud_xo, Mnemonic.i_vpminud_xxo. row_sim. }
row. { unfold MnemonicOmit32.i_vpminuw_xo, Mnemonic32.i_vpminuw_xxo, MnemonicOmit.i_vpminuw_xo, Mnemonic.i_vpminuw_xxo. row_sim. }
row. { unfold MnemonicOmit32.i_vpmuldq_xo, Mnemonic32.i_vpmuldq_xxo, MnemonicOmit.i_vpmuldq_xo, Mnemonic.i_vpmuldq_xxo. row_sim. }
row. { unfold MnemonicOmit32.i_vpmulhrsw_xo, Mnemonic32.i_vpmulhrsw_xxo, MnemonicOmit.i_vpmulhrsw_xo, Mnemonic.i_vpmulhrsw_xxo. row_sim. }
row. { unfold MnemonicOmit32.i_vpmulhuw_xo, Mnemonic32.i_vpmulhuw_xxo, MnemonicOmit.i_vpmulhuw_xo, Mnemonic.i_vpmulhuw_xxo. row_sim. }
row. { unfold MnemonicOmit32.i_vpmulhw_xo, Mnemonic32.i_vpmulhw_xxo, MnemonicOmit.i_vpmulhw_xo, Mnemonic.i_vpmulhw_xxo. row_sim. }
row. { unfold MnemonicOmit32.i_vpmulld_xo, Mnemonic32.i_vpmulld_xxo, MnemonicOmit.i_vpmulld_xo, Mnemonic.i_vpmulld_xxo. row_sim. }
row. { unfold MnemonicOmit32.i_vpmullw_xo, Mnemonic32.i_vpmullw_xxo, MnemonicOmit.i_vpmullw_xo, Mnemonic.i_vpmullw_xxo. row_sim. }
row. { unfold MnemonicOmit32.i_vpmuludq_xo, Mnemonic32.i_vpmuludq_xxo, MnemonicOmit.i_vpmuludq_xo, Mnemonic.i_vpmuludq_xxo. row_sim. }
row. { unfold MnemonicOmit32.i_vpor_xo, Mnemonic32.i_vpor_xxo, MnemonicOmit.i_vpor_xo, Mnemonic.i_vpor_xxo. row_sim. }
row. { unfold MnemonicOmit32.i_vpsadbw_xo, Mnemonic32.i_vpsadbw_xxo, MnemonicOmit.i_vpsadbw_xo, Mnemonic.i_vpsadbw_xxo. row_sim. }
row. { unfold MnemonicOmit32.i_vpsignb_xo, Mnemonic32.i_vpsignb_xxo, MnemonicOmit.i_vpsignb_xo, Mnemonic.i_vpsignb_xxo. row_sim. }
row. { unfold MnemonicOmit32.i_vpsignd_xo, Mnemonic32.i_vpsignd_xxo, MnemonicOmit.i_vpsignd_xo, Mnemonic.i_vpsignd_xxo. row_sim. }
row. { unfold MnemonicOmit32.i_vpsignw_xo, Mnemonic32.i_vpsignw_xxo, MnemonicOmit.i_vpsignw_xo, Mnemonic.i_vpsignw_xxo. row_sim. }
row. { unfold MnemonicOmit32.i_vpslld_xo, Mnemonic32.i_vpslld_xxo, MnemonicOmit.i_vpslld_xo, Mnemonic.i_vpslld_xxo. row_sim. }
row. { unfold MnemonicOmit32.i_vpslld_xi, Mnemonic32.i_vpslld_xoi, MnemonicOmit.i_vpslld_xi, Mnemonic.i_vpslld_xoi. row_sim. }
row. { unfold MnemonicOmit32.i_vpslldq_xi, Mnemonic32.i_vpslldq_xoi, MnemonicOmit.i_vpslldq_xi, Mnemonic.i_vpslldq_xoi. row_sim. }
row. { unfold MnemonicOmit32.i_vpsllq_xo, Mnemonic32.i_vpsllq_xxo, MnemonicOmit.i_vpsllq_xo, Mnemonic.i_vpsllq_xxo. row_sim. }
apply Forall_nil. Qed.
Definition sims87 : list b_entry :=
  [mkB "vpsllq_xi" (fun v => let (o, a, r, n, e, s) := v in MnemonicOmit32.i_vpsllq_xi (r 0) (n 1))
     (fun v => let (o, a, r, n, e, s) := v in MnemonicOmit.i_vpsllq_xi (r 0) (n 1));
   mkB "vpsllw_xo" (fun v => let (o, a, r, n, e, s) := v in MnemonicOmit32.i_vpsllw_xo (r 0) (o 1))
     (fun v => let (o, a, r, n, e, s) := v in MnemonicOmit.i_vpsllw_xo (r 0) (widen_op (o 1)));
   mkB "vpsllw_xi" (fun v => let (o, a, r, n, e, s) := v in MnemonicOmit32.i_vpsllw_xi (r 0) (n 1))
     (fun v => let (o, a, r, n, e, s) := v in MnemonicOmit.i_vpsllw_xi (r 0) (n 1));
   mkB "vpsrad_xo" (fun v => let (o, a, r, n, e, s) := v in MnemonicOmit32.i_vpsrad_xo (r 0) (o 1))
     (fun v => let (o, a, r, n, e, s) := v in MnemonicOmit.i_vpsrad_xo (r 0) (widen_op (o 1)));
   mkB "vpsrad_xi" (fun v => let (o, a, r, n, e, s) := v in MnemonicOmit32.i_vpsrad_xi (r 0) (n 1))
     (fun v => let (o, a, r, n, e, s) := v in MnemonicOmit.i_vpsrad_xi (r 0) (n 1));
   mkB "vpsraw_xo" (fun v => let (o, a, r, n, e, s) := v in MnemonicOmit32.i_vpsraw_xo (r 0) (o 1))
     (fun v => let (o, a, r, n, e, s) := v in MnemonicOmit.i_vpsraw_xo (r 0) (widen_op (o 1)));
   mkB "vpsraw_xi" (fun v => let (o, a, r, n, e, s) := v in MnemonicOmit32.i_vpsraw_xi (r 0) (n 1))
     (fun v => let (o, a, r, n, e, s) := v in MnemonicOmit.i_vpsraw_xi (r 0) (n 1));
   mkB "vpsrld_xo" (fun v => let (o, a, r, n, e, s) := v in MnemonicOmit32.i_vpsrld_xo (r 0) (o 1))
     (fun v => let (o, a, r, n, e, s) := v in MnemonicOmit.i_vpsrld_xo (r 0) (widen_op (o 1)));
   mkB "vpsrld_xi" (fun v => let (o, a, r, n, e, s) := v in MnemonicOmit32.i_vpsrld_xi (r 0) (n 1))
     (fun v => let (o, a, r, n, e, s) := v in MnemonicOmit.i_vpsrld_xi (r 0) (n 1));
   mkB "vpsrldq_xi" (fun v => let (o, a, r, n, e, s) := v in MnemonicOmit32.i_vpsrldq_xi (r 0) (n 1))
     (fun v => let (o, a, r, n, e, s) := v in MnemonicOmit.i_vpsrldq_xi (r 0) (n 1));
   mkB "vpsrlq_xo" (fun v => let (o, a, r, n, e, s) := v in MnemonicOmit32.i_vpsrlq_xo (r 0) (o 1))
     (fun v => let (o, a, r, n, e, s) := v in MnemonicOmit.i_vpsrlq_xo (r 0) (widen_op (o 1)));
   mkB "vpsrlq_xi" (fun v => let (o, a, r, n, e, s) := v in MnemonicOmit32.i_vpsrlq_xi (r 0) (n 1))
     (fun v => let (o, a, r, n, e, s) := v in MnemonicOmit.i_vpsrlq_xi (r 0) (n 1));
   mkB "vpsrlw_xo" (fun v => let (o, a, r, n, e, s) := v in MnemonicOmit32.i_vpsrlw_xo (r 0) (o 1))
     (fun v => let (o, a, r, n, e, s) := v in MnemonicOmit.i_vpsrlw_xo (r 0) (widen_op (o 1)));
   mkB "vpsrlw_xi" (fun v => let (o, a, r, n, e, s) := v in MnemonicOmit32.i_vpsrlw_xi (r 0) (n 1))
     (fun v => let (o, a, r, n, e, s) := v in MnemonicOmit.i_vpsrlw_xi (r 0) (n 1));
   mkB "vpsubb_xo" (fun v => let (o, a, r, n, e, s) := v in MnemonicOmit32.i_vpsubb_xo (r 0) (o 1))
     (fun v => let (o, a, r, n, e, s) := v in MnemonicOmit.i_vpsubb_xo (r 0) (widen_op (o 1)));
   mkB "vpsubd_xo" (fun v => let (o, a, r, n, e, s) := v in MnemonicOmit32.i_vpsubd_xo (r 0) (o 1))
     (fun v => let (o, a, r, n, e, s) := v in MnemonicOmit.i_vpsubd_xo (r 0) (widen_op (o 1)));
   mkB "vpsubq_xo" (fun v => let (o, a, r, n, e, s) := v in MnemonicOmit32.i_vpsubq_xo (r 0) (o 1))
     (fun v => let (o, a, r, n, e, s) := v in MnemonicOmit.i_vpsubq_xo (r 0) (widen_op (o 1)));
   mkB "vpsubsb_xo" (fun v => let (o, a, r, n, e, s) := v in MnemonicOmit32.i_vpsubsb_xo (r 0) (o 1))
     (fun v => let (o, a, r, n, e, s) := v in MnemonicOmit.i_vpsubsb_xo (r 0) (widen_op (o 1)));
   mkB "vpsubsw_xo" (fun v => let (o, a, r, n, e, s) := v in MnemonicOmit32.i_vpsubsw_xo (r 0) (o 1))
     (fun v => let (o, a, r, n, e, s) := v in MnemonicOmit.i_vpsubsw_xo (r 0) (widen_op (o 1)));
   mkB "vpsubusb_xo" (fun v => let (o, a, r, n, e, s) := v in MnemonicOmit32.i_vpsubusb_xo (r 0) (o 1))
     (fun v => let (o, a, r, n, e, s) := v in MnemonicOmit.i_vpsubusb_xo (r 0) (widen_op (o 1)));
   mkB "vpsubusw_xo" (fun v => let (o, a, r, n, e, s) := v in MnemonicOmit32.i_vpsubusw_xo (r 0) (o 1))
     (fun v => let (o, a, r, n, e, s) := v in MnemonicOmit.i_vpsubusw_xo (r 0) (widen_op (o 1)));
   mkB "vpsubw_xo" (fun v => let (o, a, r, n, e, s) := v in MnemonicOmit32.i_vpsubw_xo (r 0) (o 1))
     (fun v => let (o, a, r, n, e, s) := v in MnemonicOmit.i_vpsubw_xo (r 0) (widen_op (o 1)));
   mkB "vpunpckhbw_xo" (fun v => let (o, a, r, n, e, s) := v in MnemonicOmit32.i_vpunpckhbw_xo (r 0) (o 1))
     (fun v => let (o, a, r, n, e, s) := v in MnemonicOmit.i_vpunpckhbw_xo (r 0) (widen_op (o 1)));
   mkB "vpunpckhdq_xo" (fun v => let (o, a, r, n, e, s) := v in MnemonicOmit32.i_vpunpckhdq_xo (r 0) (o 1))
     (fun v => let (o, a, r, n, e, s) := v in MnemonicOmit.i_vpunpckhdq_xo (r 0) (widen_op (o 1)));
   mkB "vpunpckhqdq_xo" (fun v => let (o, a, r, n, e, s) := v in MnemonicOmit32.i_vpunpckhqdq_xo (r 0) (o 1))
     (fun v => let (o, a, r, n, e, s) := v in MnemonicOmit.i_vpunpckhqdq_xo (r 0) (widen_op (o 1)))].
Lemma sims87_ok : Forall same sims87.
Proof. unfold sims87.
row. { unfold MnemonicOmit32.i_vpsllq_xi, Mnemonic32.i_vpsllq_xoi, MnemonicOmit.i_vpsllq_xi, Mnemonic.i_vpsllq_xoi. row_sim. }
row. { unfold MnemonicOmit32.i_vpsllw_xo, Mnemonic32.i_vpsllw_xxo, MnemonicOmit.i_vpsllw_xo, Mnemonic.i_vpsllw_xxo. row_sim. }
row. { unfold MnemonicOmit32.i_vpsllw_xi, Mnemonic32.i_vpsllw_xoi, MnemonicOmit.i_vpsllw_xi, Mnemonic.i_vpsllw_xoi. row_sim. }
row. { unfold MnemonicOmit32.i_vpsrad_xo, Mnemonic32.i_vpsrad_xxo, MnemonicOmit.i_vpsrad_xo, Mnemonic.i_vpsrad_xxo. row_sim. }
row. { unfold MnemonicOmit32.i_vpsrad_xi, Mnemonic32.i_vpsrad_xoi, MnemonicOmit.i_vpsrad_xi, Mnemonic.i_vpsrad_xoi. row_sim. }
row. { unfold MnemonicOmit32.i_vpsraw_xo, Mnemonic32.i_vpsraw_xxo, MnemonicOmit.i_vpsraw_xo, Mnemonic.i_vpsraw_xxo. row_sim. }
row. { unfold MnemonicOmit32.i_vpsraw_xi, Mnemonic32.i_vpsraw_xoi, MnemonicOmit.i_vpsraw_xi, Mnemonic.i_vpsraw_xoi. row_sim. }
row. { unfold MnemonicOmit32.i_vpsrld_xo, Mnemonic32.i_vpsrld_xxo, MnemonicOmit.i_vpsrld_xo, Mnemonic.i_vpsrld_xxo. row_sim. }
row. { unfold MnemonicOmit32.i_vpsrld_xi, Mnemonic32.i_vpsrld_xoi, MnemonicOmit.i_vpsrld_xi, Mnemonic.i_vpsrld_xoi. row_sim. }
row. { unfold MnemonicOmit32.i_vpsrldq_xi, Mnemonic32.i_vpsrldq_xoi, MnemonicOmit.i_vpsrldq_xi, Mnemonic.i_vpsrldq_xoi. row_sim. }
row. { unfold MnemonicOmit32.i_vpsrlq_xo, Mnemonic32.i_vpsrlq_xxo, MnemonicOmit.i_vpsrlq_xo, Mnemonic.i_vpsrlq_xxo. row_sim. }
row. { unfold MnemonicOmit32.i_vpsrlq_xi, Mnemonic32.i_vpsrlq_xoi, MnemonicOmit.i_vpsrlq_xi, Mnemonic.i_vpsrlq_xoi. row_sim. }
row. { unfold MnemonicOmit32.i_vpsrlw_xo, Mnemonic32.i_vpsrlw_xxo, MnemonicOmit.i_vpsrlw_xo, Mnemonic.i_vpsrlw_xxo. row_sim. }
row. { unfold MnemonicOmit32.i_vpsrlw_xi, Mnemonic32.i_vpsrlw_xoi, MnemonicOmit.i_vpsrlw_xi, Mnemonic.i_vpsrlw_xoi. row_sim. }
row. { unfold MnemonicOmit32.i_vpsubb_xo, Mnemonic32.i_vpsubb_xxo, MnemonicOmit.i_vpsubb_xo, Mnemonic.i_vpsubb_xxo. row_sim. }
row. { unfold MnemonicOmit32.i_vpsubd_xo, Mnemonic32.i_vpsubd_xxo, MnemonicOmit.i_vpsubd_xo, Mnemonic.i_vpsubd_xxo. row_sim. }
row. { unfold MnemonicOmit32.i_vpsubq_xo, Mnemonic32.i_vpsubq_xxo, MnemonicOmit.i_vpsubq_xo, Mnemonic.i_vpsubq_xxo. row_sim. }
row. { unfold MnemonicOmit32.i_vpsubsb_xo, Mnemonic32.i_vpsubsb_xxo, MnemonicOmit.i_vpsubsb_xo, Mnemonic.i_vpsubsb_xxo. row_sim. }
row. { unfold MnemonicOmit32.i_vpsubsw_xo, Mnemonic32.i_vpsubsw_xxo, MnemonicOmit.i_vpsubsw_xo, Mnemonic.i_vpsubsw_xxo. row_sim. }
row. { unfold MnemonicOmit32.i_vpsubusb_xo, Mnemonic32.i_vpsubusb_xxo, MnemonicOmit.i_vpsubusb_xo, Mnemonic.i_vpsubusb_xxo. row_sim. }
row. { unfold MnemonicOmit32.i_vpsubusw_xo, Mnemonic32.i_vpsubusw_xxo, MnemonicOmit.i_vpsubusw_xo, Mnemonic.i_vpsubusw_xxo. row_sim. }
row. { unfold MnemonicOmit32.i_vpsubw_xo, Mnemonic32.i_vpsubw_xxo, MnemonicOmit.i_vpsubw_xo, Mnemonic.i_vpsubw_xxo. row_sim. }
row. { unfold MnemonicOmit32.i_vpunpckhbw_xo, Mnemonic32.i_vpunpckhbw_xxo, MnemonicOmit.i_vpunpckhbw_xo, Mnemonic.i_vpunpckhbw_xxo. row_sim. }
row. { unfold MnemonicOmit32.i_vpunpckhdq_xo, Mnemonic32.i_vpunpckhdq_xxo, MnemonicOmit.i_vpunpckhdq_xo, Mnemonic.i_vpunpckhdq_xxo. row_sim. }
row. { unfold MnemonicOmit32.i_vpunpckhqdq_xo, Mnemonic32.i_vpunpckhqdq_xxo, MnemonicOmit.i_vpunpckhqdq_xo, Mnemonic.i_vpunpckhqdq_xxo. row_sim. }
apply Forall_nil. Qed.
Definition sims88 : list b_entry :=
  [mkB "vpunpckhwd_xo" (fun v => let (o, a, r, n, e, s) := v in MnemonicOmit32.i_vpunpckhwd_xo (r 0) (o 1))
     (fun v => let (o, a, r, n, e, s) := v in MnemonicOmit.i_vpunpckhwd_xo (r 0) (widen_op (o 1)));
   mkB "vpunpcklbw_xo" (fun v => let (o, a, r, n, e, s) := v in MnemonicOmit32.i_vpunpcklbw_xo (r 0) (o 1))
     (fun v => let (o, a, r, n, e, s) := v in MnemonicOmit.i_vpunpcklbw_xo (r 0) (widen_op (o 1)));
   mkB "vpunpckldq_xo" (fun v => let (o, a, r, n, e, s) := v in MnemonicOmit32.i_vpunpckldq_xo (r 0) (o 1))
     (fun v => let (o, a, r, n, e, s) := v in MnemonicOmit.i_vpunpckldq_xo (r 0) (widen_op (o 1)));
   mkB "vpunpcklqdq_xo" (fun v => let (o, a, r, n, e, s) := v in MnemonicOmit32.i_vpunpcklqdq_xo (r 0) (o 1))
     (fun v => let (o, a, r, n, e, s) := v in MnemonicOmit.i_vpunpcklqdq_xo (r 0) (widen_op (o 1)));
   mkB "vpunpcklwd_xo" (fun v => let (o, a, r, n, e, s) := v in MnemonicOmit32.i_vpunpcklwd_xo (r 0) (o 1))
     (fun v => let (o, a, r, n, e, s) := v in MnemonicOmit.i_vpunpcklwd_xo (r 0) (widen_op (o 1)));
   mkB "vpxor_xo" (fun v => let (o, a, r, n, e, s) := v in MnemonicOmit32.i_vpxor_xo (r 0) (o 1))
     (fun v => let (o, a, r, n, e, s) := v in MnemonicOmit.i_vpxor_xo (r 0) (widen_op (o 1)));
   mkB "vrcpss_xo" (fun v => let (o, a, r, n, e, s) := v in MnemonicOmit32.i_vrcpss_xo (r 0) (o 1))
     (fun v => let (o, a, r, n, e, s) := v in MnemonicOmit.i_vrcpss_xo (r 0) (widen_op (o 1)));
   mkB "vroundsd_xoi" (fun v => let (o, a, r, n, e, s) := v in MnemonicOmit32.i_vroundsd_xoi (r 0) (o 1) (n 2))
     (fun v => let (o, a, r, n, e, s) := v in MnemonicOmit.i_vroundsd_xoi (r 0) (widen_op (o 1)) (n 2));
   mkB "vroundss_xoi" (fun v => let (o, a, r, n, e, s) := v in MnemonicOmit32.i_vroundss_xoi (r 0) (o 1) (n 2))
     (fun v => let (o, a, r, n, e, s) := v in MnemonicOmit.i_vroundss_xoi (r 0) (widen_op (o 1)) (n 2));
   mkB "vrsqrtss_xo" (fun v => let (o, a, r, n, e, s) := v in MnemonicOmit32.i_vrsqrtss_xo (r 0) (o 1))
     (fun v => let (o, a, r, n, e, s) := v in MnemonicOmit.i_vrsqrtss_xo (r 0) (widen_op (o 1)));
   mkB "vshufpd_xoi" (fun v => let (o, a, r, n, e, s) := v in MnemonicOmit32.i_vshufpd_xoi (r 0) (o 1) (n 2))
     (fun v => let (o, a, r, n, e, s) := v in MnemonicOmit.i_vshufpd_xoi (r 0) (widen_op (o 1)) (n 2));
   mkB "vshufps_xoi" (fun v => let (o, a, r, n, e, s) := v in MnemonicOmit32.i_vshufps_xoi (r 0) (o 1) (n 2))
     (fun v => let (o, a, r, n, e, s) := v in MnemonicOmit.i_vshufps_xoi (r 0) (widen_op (o 1)) (n 2));
   mkB "vsqrtsd_xo" (fun v => let (o, a, r, n, e, s) := v in MnemonicOmit32.i_vsqrtsd_xo (r 0) (o 1))
     (fun v => let (o, a, r, n, e, s) := v in MnemonicOmit.i_vsqrtsd_xo (r 0) (widen_op (o 1)));
   mkB "vsqrtss_xo" (fun v => let (o, a, r, n, e, s) := v in MnemonicOmit32.i_vsqrtss_xo (r 0) (o 1))
     (fun v => let (o, a, r, n, e, s) := v in MnemonicOmit.i_vsqrtss_xo (r 0) (widen_op (o 1)));
   mkB "vunpckhpd_xo" (fun v => let (o, a, r, n, e, s) := v in MnemonicOmit32.i_vunpckhpd_xo (r 0) (o 1))
     (fun v => let (o, a, r, n, e, s) := v in MnemonicOmit.i_vunpckhpd_xo (r 0) (widen_op (o 1)));
   mkB "vunpckhps_xo" (fun v => let (o, a, r, n, e, s) := v in MnemonicOmit32.i_vunpckhps_xo (r 0) (o 1))
     (fun v => let (o, a, r, n, e, s) := v in MnemonicOmit.i_vunpckhps_xo (r 0) (widen_op (o 1)));
   mkB "vunpcklpd_xo" (fun v => let (o, a, r, n, e, s) := v in MnemonicOmit32.i_vunpcklpd_xo (r 0) (o 1))
     (fun v => let (o, a, r, n, e, s) := v in MnemonicOmit.i_vunpcklpd_xo (r 0) (widen_op (o 1)));
   mkB "vunpcklps_xo" (fun v => let (o, a, r, n, e, s) := v in MnemonicOmit32.i_vunpcklps_xo (r 0) (o 1))
     (fun v => let (o, a, r, n, e, s) := v in MnemonicOmit.i_vunpcklps_xo (r 0) (widen_op (o 1)));
   mkB "test_" (fun v => let (o, a, r, n, e, s) := v in Encode32.test_ (o 0) (r 1))
     (fun v => let (o, a, r, n, e, s) := v in Encode.test_ (widen_op (o 0)) (r 1));
   mkB "test_imm" (fun v => let (o, a, r, n, e, s) := v in Encode32.test_imm (o 0) (n 1))
     (fun v => let (o, a, r, n, e, s) := v in Encode.test_imm (widen_op (o 0)) (n 1));
   mkB "imul_imm" (fun v => let (o, a, r, n, e, s) := v in Encode32.imul_imm (r 0) (o 1) (n 2))
     (fun v => let (o, a, r, n, e, s) := v in Encode.imul_imm (r 0) (widen_op (o 1)) (n 2));
   mkB "mov_oi" (fun v => let (o, a, r, n, e, s) := v in Encode32.mov_oi (o 0) (n 1))
     (fun v => let (o, a, r, n, e, s) := v in Encode.mov_oi (widen_op (o 0)) (n 1));
   mkB "vmovd" (fun v => let (o, a, r, n, e, s) := v in Encode32.vmovd (o 0) (o 1) e)
     (fun v => let (o, a, r, n, e, s) := v in Encode.vmovd (widen_op (o 0)) (widen_op (o 1)) e);
   mkB "vmovw" (fun v => let (o, a, r, n, e, s) := v in Encode32.vmovw (o 0) (o 1) e)
     (fun v => let (o, a, r, n, e, s) := v in Encode.vmovw (widen_op (o 0)) (widen_op (o 1)) e);
   mkB "mov_o_seg" (fun v => let (o, a, r, n, e, s) := v in Encode32.mov_o_seg (o 0) s)
     (fun v => let (o, a, r, n, e, s) := v in Encode.mov_o_seg (widen_op (o 0)) s)].
Lemma sims88_ok : Forall same sims88.
Proof. unfold sims88.
row. { unfold MnemonicOmit32.i_vpunpckhwd_xo, Mnemonic32.i_vpunpckhwd_xxo, MnemonicOmit.i_vpunpckhwd_xo, Mnemonic.i_vpunpckhwd_xxo. row_sim. }
row. { unfold MnemonicOmit32.i_vpunpcklbw_xo, Mnemonic32.i_vpunpcklbw_xxo, MnemonicOmit.i_vpunpcklbw_xo, Mnemonic.i_vpunpcklbw_xxo. row_sim. }
row. { unfold MnemonicOmit32.i_vpunpckldq_xo, Mnemonic32.i_vpunpckldq_xxo, MnemonicOmit.i_vpunpckldq_xo, Mnemonic.i_vpunpckldq_xxo. row_sim. }
row. { unfold MnemonicOmit32.i_vpunpcklqdq_xo, Mnemonic32.i_vpunpcklqdq_xxo, MnemonicOmit.i_vpunpcklqdq_xo, Mnemonic.i_vpunpcklqdq_xxo. row_sim. }
row. { unfold MnemonicOmit32.i_vpunpcklwd_xo, Mnemonic32.i_vpunpcklwd_xxo, MnemonicOmit.i_vpunpcklwd_xo, Mnemonic.i_vpunpcklwd_xxo. row_sim. }
row. { unfold MnemonicOmit32.i_vpxor_xo, Mnemonic32.i_vpxor_xxo, MnemonicOmit.i_vpxor_xo, Mnemonic.i_vpxor_xxo. row_sim. }
row. { unfold MnemonicOmit32.i_vrcpss_xo, Mnemonic32.i_vrcpss_xxo, MnemonicOmit.i_vrcpss_xo, Mnemonic.i_vrcpss_xxo. row_sim. }
row. { unfold MnemonicOmit32.i_vroundsd_xoi, Mnemonic32.i_vroundsd_xxoi, MnemonicOmit.i_vroundsd_xoi, Mnemonic.i_vroundsd_xxoi. row_sim. }
row. { unfold MnemonicOmit32.i_vroundss_xoi, Mnemonic32.i_vroundss_xxoi, MnemonicOmit.i_vroundss_xoi, Mnemonic.i_vroundss_xxoi. row_sim. }
row. { unfold MnemonicOmit32.i_vrsqrtss_xo, Mnemonic32.i_vrsqrtss_xxo, MnemonicOmit.i_vrsqrtss_xo, Mnemonic.i_vrsqrtss_xxo. row_sim. }
row. { unfold MnemonicOmit32.i_vshufpd_xoi, Mnemonic32.i_vshufpd_xxoi, MnemonicOmit.i_vshufpd_xoi, Mnemonic.i_vshufpd_xxoi. row_sim. }
row. { unfold MnemonicOmit32.i_vshufps_xoi, Mnemonic32.i_vshufps_xxoi, MnemonicOmit.i_vshufps_xoi, Mnemonic.i_vshufps_xxoi. row_sim. }
row. { unfold MnemonicOmit32.i_vsqrtsd_xo, Mnemonic32.i_vsqrtsd_xxo, MnemonicOmit.i_vsqrtsd_xo, Mnemonic.i_vsqrtsd_xxo. row_sim. }
row. { unfold MnemonicOmit32.i_vsqrtss_xo, Mnemonic32.i_vsqrtss_xxo, MnemonicOmit.i_vsqrtss_xo, Mnemonic.i_vsqrtss_xxo. row_sim. }
row. { unfold MnemonicOmit32.i_vunpckhpd_xo, Mnemonic32.i_vunpckhpd_xxo, MnemonicOmit.i_vunpckhpd_xo, Mnemonic.i_vunpckhpd_xxo. row_sim. }
row. { unfold MnemonicOmit32.i_vunpckhps_xo, Mnemonic32.i_vunpckhps_xxo, MnemonicOmit.i_vunpckhps_xo, Mnemonic.i_vunpckhps_xxo. row_sim. }
row. { unfold MnemonicOmit32.i_vunpcklpd_xo, Mnemonic32.i_vunpcklpd_xxo, MnemonicOmit.i_vunpcklpd_xo, Mnemonic.i_vunpcklpd_xxo. row_sim. }
row. { unfold MnemonicOmit32.i_vunpcklps_xo, Mnemonic32.i_vunpcklps_xxo, MnemonicOmit.i_vunpcklps_xo, Mnemonic.i_vunpcklps_xxo. row_sim. }
srow_. { row_sim. }
row. { row_sim. }
srow_. { row_sim. }
row. { row_sim. }
row. { row_sim. }
row. { row_sim. }
row. { row_sim. }
apply Forall_nil. Qed.
Definition sims89 : list b_entry :=
  [mkB "mov_seg_o" (fun v => let (o, a, r, n, e, s) := v in Encode32.mov_seg_o s (o 1))
     (fun v => let (o, a, r, n, e, s) := v in Encode.mov_seg_o s (widen_op (o 1)))].
Lemma sims89_ok : Forall same sims89.
Proof. unfold sims89.
row. { row_sim. }
apply Forall_nil. Qed.

Definition b_methods : list b_entry :=
  sims0 ++ sims1 ++ sims2 ++ sims3 ++ sims4 ++ sims5 ++ sims6 ++ sims7 ++ sims8 ++ sims9 ++ sims10 ++ sims11 ++ sims12 ++ sims13 ++ sims14 ++ sims15 ++ sims16 ++ sims17 ++ sims18 ++ sims19 ++ sims20 ++ sims21 ++ sims22 ++ sims23 ++ sims24 ++ sims25 ++ sims26 ++ sims27 ++ sims28 ++ sims29 ++ sims30 ++ sims31 ++ sims32 ++ sims33 ++ sims34 ++ sims35 ++ sims36 ++ sims37 ++ sims38 ++ sims39 ++ sims40 ++ sims41 ++ sims42 ++ sims43 ++ sims44 ++ sims45 ++ sims46 ++ sims47 ++ sims48 ++ sims49 ++ sims50 ++ sims51 ++ sims52 ++ sims53 ++ sims54 ++ sims55 ++ sims56 ++ sims57 ++ sims58 ++ sims59 ++ sims60 ++ sims61 ++ sims62 ++ sims63 ++ sims64 ++ sims65 ++ sims66 ++ sims67 ++ sims68 ++ sims69 ++ sims70 ++ sims71 ++ sims72 ++ sims73 ++ sims74 ++ sims75 ++ sims76 ++ sims77 ++ sims78 ++ sims79 ++ sims80 ++ sims81 ++ sims82 ++ sims83 ++ sims84 ++ sims85 ++ sims86 ++ sims87 ++ sims88 ++ sims89.
Lemma b_methods_ok : Forall same b_methods.
Proof. unfold b_methods. repeat (apply Forall_app; split); auto using sims0_ok, sims1_ok, sims2_ok, sims3_ok, sims4_ok, sims5_ok, sims6_ok, sims7_ok, sims8_ok, sims9_ok, sims10_ok, sims11_ok, sims12_ok, sims13_ok, sims14_ok, sims15_ok, sims16_ok, sims17_ok, sims18_ok, sims19_ok, sims20_ok, sims21_ok, sims22_ok, sims23_ok, sims24_ok, sims25_ok, sims26_ok, sims27_ok, sims28_ok, sims29_ok, sims30_ok, sims31_ok, sims32_ok, sims33_ok, sims34_ok, sims35_ok, sims36_ok, sims37_ok, sims38_ok, sims39_ok, sims40_ok, sims41_ok, sims42_ok, sims43_ok, sims44_ok, sims45_ok, sims46_ok, sims47_ok, sims48_ok, sims49_ok, sims50_ok, sims51_ok, sims52_ok, sims53_ok, sims54_ok, sims55_ok, sims56_ok, sims57_ok, sims58_ok, sims59_ok, sims60_ok, sims61_ok, sims62_ok, sims63_ok, sims64_ok, sims65_ok, sims66_ok, sims67_ok, sims68_ok, sims69_ok, sims70_ok, sims71_ok, sims72_ok, sims73_ok, sims74_ok, sims75_ok, sims76_ok, sims77_ok, sims78_ok, sims79_ok, sims80_ok, sims81_ok, sims82_ok, sims83_ok, sims84_ok, sims85_ok, sims86_ok, sims87_ok, sims88_ok, sims89_ok. Qed.
