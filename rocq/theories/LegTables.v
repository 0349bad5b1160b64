(* Generated by tools/legtab.py.  Legacy-encoded methods of xbyak_mnemonic.h with their instruction rows
   (written from the Intel SDM vol. 2), and the proof that each method implements its rows. *)
From Coq Require Import ZArith List Bool String Lia.
From Verif Require Import Base Types Emit Encode Mnemonic SpecX86 SpecAddr SpecIsa SpecInsn SpecLeg Wf EmitFacts LegFacts LegShapes.
Import ListNotations.
Open Scope Z_scope.
Ltac chk := vm_compute; reflexivity.
Definition e_addps := mkLE "addps"%string [tX; tOx] (ro i_addps) [xrow NP 1 0x58 OsN I_none].
Lemma l_addps : limplements e_addps.
Proof. eapply xm_entry; [intros; reflexivity|chk]. Qed.
Definition e_addpd := mkLE "addpd"%string [tX; tOx] (ro i_addpd) [xrow P66 1 0x58 OsN I_none].
Lemma l_addpd : limplements e_addpd.
Proof. eapply xm_entry; [intros; reflexivity|chk]. Qed.
Definition e_addss := mkLE "addss"%string [tX; tOx] (ro i_addss) [xrow PF3 1 0x58 OsN I_none].
Lemma l_addss : limplements e_addss.
Proof. eapply xm_entry; [intros; reflexivity|chk]. Qed.
Definition e_addsd := mkLE "addsd"%string [tX; tOx] (ro i_addsd) [xrow PF2 1 0x58 OsN I_none].
Lemma l_addsd : limplements e_addsd.
Proof. eapply xm_entry; [intros; reflexivity|chk]. Qed.
Definition e_mulps := mkLE "mulps"%string [tX; tOx] (ro i_mulps) [xrow NP 1 0x59 OsN I_none].
Lemma l_mulps : limplements e_mulps.
Proof. eapply xm_entry; [intros; reflexivity|chk]. Qed.
Definition e_mulpd := mkLE "mulpd"%string [tX; tOx] (ro i_mulpd) [xrow P66 1 0x59 OsN I_none].
Lemma l_mulpd : limplements e_mulpd.
Proof. eapply xm_entry; [intros; reflexivity|chk]. Qed.
Definition e_mulss := mkLE "mulss"%string [tX; tOx] (ro i_mulss) [xrow PF3 1 0x59 OsN I_none].
Lemma l_mulss : limplements e_mulss.
Proof. eapply xm_entry; [intros; reflexivity|chk]. Qed.
Definition e_mulsd := mkLE "mulsd"%string [tX; tOx] (ro i_mulsd) [xrow PF2 1 0x59 OsN I_none].
Lemma l_mulsd : limplements e_mulsd.
Proof. eapply xm_entry; [intros; reflexivity|chk]. Qed.
Definition e_subps := mkLE "subps"%string [tX; tOx] (ro i_subps) [xrow NP 1 0x5C OsN I_none].
Lemma l_subps : limplements e_subps.
Proof. eapply xm_entry; [intros; reflexivity|chk]. Qed.
Definition e_subpd := mkLE "subpd"%string [tX; tOx] (ro i_subpd) [xrow P66 1 0x5C OsN I_none].
Lemma l_subpd : limplements e_subpd.
Proof. eapply xm_entry; [intros; reflexivity|chk]. Qed.
Definition e_subss := mkLE "subss"%string [tX; tOx] (ro i_subss) [xrow PF3 1 0x5C OsN I_none].
Lemma l_subss : limplements e_subss.
Proof. eapply xm_entry; [intros; reflexivity|chk]. Qed.
Definition e_subsd := mkLE "subsd"%string [tX; tOx] (ro i_subsd) [xrow PF2 1 0x5C OsN I_none].
Lemma l_subsd : limplements e_subsd.
Proof. eapply xm_entry; [intros; reflexivity|chk]. Qed.
Definition e_minps := mkLE "minps"%string [tX; tOx] (ro i_minps) [xrow NP 1 0x5D OsN I_none].
Lemma l_minps : limplements e_minps.
Proof. eapply xm_entry; [intros; reflexivity|chk]. Qed.
Definition e_minpd := mkLE "minpd"%string [tX; tOx] (ro i_minpd) [xrow P66 1 0x5D OsN I_none].
Lemma l_minpd : limplements e_minpd.
Proof. eapply xm_entry; [intros; reflexivity|chk]. Qed.
Definition e_minss := mkLE "minss"%string [tX; tOx] (ro i_minss) [xrow PF3 1 0x5D OsN I_none].
Lemma l_minss : limplements e_minss.
Proof. eapply xm_entry; [intros; reflexivity|chk]. Qed.
Definition e_minsd := mkLE "minsd"%string [tX; tOx] (ro i_minsd) [xrow PF2 1 0x5D OsN I_none].
Lemma l_minsd : limplements e_minsd.
Proof. eapply xm_entry; [intros; reflexivity|chk]. Qed.
Definition e_divps := mkLE "divps"%string [tX; tOx] (ro i_divps) [xrow NP 1 0x5E OsN I_none].
Lemma l_divps : limplements e_divps.
Proof. eapply xm_entry; [intros; reflexivity|chk]. Qed.
Definition e_divpd := mkLE "divpd"%string [tX; tOx] (ro i_divpd) [xrow P66 1 0x5E OsN I_none].
Lemma l_divpd : limplements e_divpd.
Proof. eapply xm_entry; [intros; reflexivity|chk]. Qed.
Definition e_divss := mkLE "divss"%string [tX; tOx] (ro i_divss) [xrow PF3 1 0x5E OsN I_none].
Lemma l_divss : limplements e_divss.
Proof. eapply xm_entry; [intros; reflexivity|chk]. Qed.
Definition e_divsd := mkLE "divsd"%string [tX; tOx] (ro i_divsd) [xrow PF2 1 0x5E OsN I_none].
Lemma l_divsd : limplements e_divsd.
Proof. eapply xm_entry; [intros; reflexivity|chk]. Qed.
Definition e_maxps := mkLE "maxps"%string [tX; tOx] (ro i_maxps) [xrow NP 1 0x5F OsN I_none].
Lemma l_maxps : limplements e_maxps.
Proof. eapply xm_entry; [intros; reflexivity|chk]. Qed.
Definition e_maxpd := mkLE "maxpd"%string [tX; tOx] (ro i_maxpd) [xrow P66 1 0x5F OsN I_none].
Lemma l_maxpd : limplements e_maxpd.
Proof. eapply xm_entry; [intros; reflexivity|chk]. Qed.
Definition e_maxss := mkLE "maxss"%string [tX; tOx] (ro i_maxss) [xrow PF3 1 0x5F OsN I_none].
Lemma l_maxss : limplements e_maxss.
Proof. eapply xm_entry; [intros; reflexivity|chk]. Qed.
Definition e_maxsd := mkLE "maxsd"%string [tX; tOx] (ro i_maxsd) [xrow PF2 1 0x5F OsN I_none].
Lemma l_maxsd : limplements e_maxsd.
Proof. eapply xm_entry; [intros; reflexivity|chk]. Qed.
Definition e_sqrtps := mkLE "sqrtps"%string [tX; tOx] (ro i_sqrtps) [xrow NP 1 0x51 OsN I_none].
Lemma l_sqrtps : limplements e_sqrtps.
Proof. eapply xm_entry; [intros; reflexivity|chk]. Qed.
Definition e_sqrtpd := mkLE "sqrtpd"%string [tX; tOx] (ro i_sqrtpd) [xrow P66 1 0x51 OsN I_none].
Lemma l_sqrtpd : limplements e_sqrtpd.
Proof. eapply xm_entry; [intros; reflexivity|chk]. Qed.
Definition e_sqrtss := mkLE "sqrtss"%string [tX; tOx] (ro i_sqrtss) [xrow PF3 1 0x51 OsN I_none].
Lemma l_sqrtss : limplements e_sqrtss.
Proof. eapply xm_entry; [intros; reflexivity|chk]. Qed.
Definition e_sqrtsd := mkLE "sqrtsd"%string [tX; tOx] (ro i_sqrtsd) [xrow PF2 1 0x51 OsN I_none].
Lemma l_sqrtsd : limplements e_sqrtsd.
Proof. eapply xm_entry; [intros; reflexivity|chk]. Qed.
Definition e_rsqrtps := mkLE "rsqrtps"%string [tX; tOx] (ro i_rsqrtps) [xrow NP 1 0x52 OsN I_none].
Lemma l_rsqrtps : limplements e_rsqrtps.
Proof. eapply xm_entry; [intros; reflexivity|chk]. Qed.
Definition e_rsqrtss := mkLE "rsqrtss"%string [tX; tOx] (ro i_rsqrtss) [xrow PF3 1 0x52 OsN I_none].
Lemma l_rsqrtss : limplements e_rsqrtss.
Proof. eapply xm_entry; [intros; reflexivity|chk]. Qed.
Definition e_rcpps := mkLE "rcpps"%string [tX; tOx] (ro i_rcpps) [xrow NP 1 0x53 OsN I_none].
Lemma l_rcpps : limplements e_rcpps.
Proof. eapply xm_entry; [intros; reflexivity|chk]. Qed.
Definition e_rcpss := mkLE "rcpss"%string [tX; tOx] (ro i_rcpss) [xrow PF3 1 0x53 OsN I_none].
Lemma l_rcpss : limplements e_rcpss.
Proof. eapply xm_entry; [intros; reflexivity|chk]. Qed.
Definition e_andps := mkLE "andps"%string [tX; tOx] (ro i_andps) [xrow NP 1 0x54 OsN I_none].
Lemma l_andps : limplements e_andps.
Proof. eapply xm_entry; [intros; reflexivity|chk]. Qed.
Definition e_andpd := mkLE "andpd"%string [tX; tOx] (ro i_andpd) [xrow P66 1 0x54 OsN I_none].
Lemma l_andpd : limplements e_andpd.
Proof. eapply xm_entry; [intros; reflexivity|chk]. Qed.
Definition e_andnps := mkLE "andnps"%string [tX; tOx] (ro i_andnps) [xrow NP 1 0x55 OsN I_none].
Lemma l_andnps : limplements e_andnps.
Proof. eapply xm_entry; [intros; reflexivity|chk]. Qed.
Definition e_andnpd := mkLE "andnpd"%string [tX; tOx] (ro i_andnpd) [xrow P66 1 0x55 OsN I_none].
Lemma l_andnpd : limplements e_andnpd.
Proof. eapply xm_entry; [intros; reflexivity|chk]. Qed.
Definition e_orps := mkLE "orps"%string [tX; tOx] (ro i_orps) [xrow NP 1 0x56 OsN I_none].
Lemma l_orps : limplements e_orps.
Proof. eapply xm_entry; [intros; reflexivity|chk]. Qed.
Definition e_orpd := mkLE "orpd"%string [tX; tOx] (ro i_orpd) [xrow P66 1 0x56 OsN I_none].
Lemma l_orpd : limplements e_orpd.
Proof. eapply xm_entry; [intros; reflexivity|chk]. Qed.
Definition e_xorps := mkLE "xorps"%string [tX; tOx] (ro i_xorps) [xrow NP 1 0x57 OsN I_none].
Lemma l_xorps : limplements e_xorps.
Proof. eapply xm_entry; [intros; reflexivity|chk]. Qed.
Definition e_xorpd := mkLE "xorpd"%string [tX; tOx] (ro i_xorpd) [xrow P66 1 0x57 OsN I_none].
Lemma l_xorpd : limplements e_xorpd.
Proof. eapply xm_entry; [intros; reflexivity|chk]. Qed.
Definition e_unpcklps := mkLE "unpcklps"%string [tX; tOx] (ro i_unpcklps) [xrow NP 1 0x14 OsN I_none].
Lemma l_unpcklps : limplements e_unpcklps.
Proof. eapply xm_entry; [intros; reflexivity|chk]. Qed.
Definition e_unpcklpd := mkLE "unpcklpd"%string [tX; tOx] (ro i_unpcklpd) [xrow P66 1 0x14 OsN I_none].
Lemma l_unpcklpd : limplements e_unpcklpd.
Proof. eapply xm_entry; [intros; reflexivity|chk]. Qed.
Definition e_unpckhps := mkLE "unpckhps"%string [tX; tOx] (ro i_unpckhps) [xrow NP 1 0x15 OsN I_none].
Lemma l_unpckhps : limplements e_unpckhps.
Proof. eapply xm_entry; [intros; reflexivity|chk]. Qed.
Definition e_unpckhpd := mkLE "unpckhpd"%string [tX; tOx] (ro i_unpckhpd) [xrow P66 1 0x15 OsN I_none].
Lemma l_unpckhpd : limplements e_unpckhpd.
Proof. eapply xm_entry; [intros; reflexivity|chk]. Qed.
Definition e_ucomiss := mkLE "ucomiss"%string [tX; tOx] (ro i_ucomiss) [xrow NP 1 0x2E OsN I_none].
Lemma l_ucomiss : limplements e_ucomiss.
Proof. eapply xm_entry; [intros; reflexivity|chk]. Qed.
Definition e_ucomisd := mkLE "ucomisd"%string [tX; tOx] (ro i_ucomisd) [xrow P66 1 0x2E OsN I_none].
Lemma l_ucomisd : limplements e_ucomisd.
Proof. eapply xm_entry; [intros; reflexivity|chk]. Qed.
Definition e_comiss := mkLE "comiss"%string [tX; tOx] (ro i_comiss) [xrow NP 1 0x2F OsN I_none].
Lemma l_comiss : limplements e_comiss.
Proof. eapply xm_entry; [intros; reflexivity|chk]. Qed.
Definition e_comisd := mkLE "comisd"%string [tX; tOx] (ro i_comisd) [xrow P66 1 0x2F OsN I_none].
Lemma l_comisd : limplements e_comisd.
Proof. eapply xm_entry; [intros; reflexivity|chk]. Qed.
Definition e_cvtps2pd := mkLE "cvtps2pd"%string [tX; tOx] (ro i_cvtps2pd) [xrow NP 1 0x5A OsN I_none].
Lemma l_cvtps2pd : limplements e_cvtps2pd.
Proof. eapply xm_entry; [intros; reflexivity|chk]. Qed.
Definition e_cvtpd2ps := mkLE "cvtpd2ps"%string [tX; tOx] (ro i_cvtpd2ps) [xrow P66 1 0x5A OsN I_none].
Lemma l_cvtpd2ps : limplements e_cvtpd2ps.
Proof. eapply xm_entry; [intros; reflexivity|chk]. Qed.
Definition e_cvtss2sd := mkLE "cvtss2sd"%string [tX; tOx] (ro i_cvtss2sd) [xrow PF3 1 0x5A OsN I_none].
Lemma l_cvtss2sd : limplements e_cvtss2sd.
Proof. eapply xm_entry; [intros; reflexivity|chk]. Qed.
Definition e_cvtsd2ss := mkLE "cvtsd2ss"%string [tX; tOx] (ro i_cvtsd2ss) [xrow PF2 1 0x5A OsN I_none].
Lemma l_cvtsd2ss : limplements e_cvtsd2ss.
Proof. eapply xm_entry; [intros; reflexivity|chk]. Qed.
Definition e_cvtdq2ps := mkLE "cvtdq2ps"%string [tX; tOx] (ro i_cvtdq2ps) [xrow NP 1 0x5B OsN I_none].
Lemma l_cvtdq2ps : limplements e_cvtdq2ps.
Proof. eapply xm_entry; [intros; reflexivity|chk]. Qed.
Definition e_cvtps2dq := mkLE "cvtps2dq"%string [tX; tOx] (ro i_cvtps2dq) [xrow P66 1 0x5B OsN I_none].
Lemma l_cvtps2dq : limplements e_cvtps2dq.
Proof. eapply xm_entry; [intros; reflexivity|chk]. Qed.
Definition e_cvttps2dq := mkLE "cvttps2dq"%string [tX; tOx] (ro i_cvttps2dq) [xrow PF3 1 0x5B OsN I_none].
Lemma l_cvttps2dq : limplements e_cvttps2dq.
Proof. eapply xm_entry; [intros; reflexivity|chk]. Qed.
Definition e_cvttpd2dq := mkLE "cvttpd2dq"%string [tX; tOx] (ro i_cvttpd2dq) [xrow P66 1 0xE6 OsN I_none].
Lemma l_cvttpd2dq : limplements e_cvttpd2dq.
Proof. eapply xm_entry; [intros; reflexivity|chk]. Qed.
Definition e_cvtdq2pd := mkLE "cvtdq2pd"%string [tX; tOx] (ro i_cvtdq2pd) [xrow PF3 1 0xE6 OsN I_none].
Lemma l_cvtdq2pd : limplements e_cvtdq2pd.
Proof. eapply xm_entry; [intros; reflexivity|chk]. Qed.
Definition e_cvtpd2dq := mkLE "cvtpd2dq"%string [tX; tOx] (ro i_cvtpd2dq) [xrow PF2 1 0xE6 OsN I_none].
Lemma l_cvtpd2dq : limplements e_cvtpd2dq.
Proof. eapply xm_entry; [intros; reflexivity|chk]. Qed.
Definition e_haddpd := mkLE "haddpd"%string [tX; tOx] (ro i_haddpd) [xrow P66 1 0x7C OsN I_none].
Lemma l_haddpd : limplements e_haddpd.
Proof. eapply xm_entry; [intros; reflexivity|chk]. Qed.
Definition e_haddps := mkLE "haddps"%string [tX; tOx] (ro i_haddps) [xrow PF2 1 0x7C OsN I_none].
Lemma l_haddps : limplements e_haddps.
Proof. eapply xm_entry; [intros; reflexivity|chk]. Qed.
Definition e_hsubpd := mkLE "hsubpd"%string [tX; tOx] (ro i_hsubpd) [xrow P66 1 0x7D OsN I_none].
Lemma l_hsubpd : limplements e_hsubpd.
Proof. eapply xm_entry; [intros; reflexivity|chk]. Qed.
Definition e_hsubps := mkLE "hsubps"%string [tX; tOx] (ro i_hsubps) [xrow PF2 1 0x7D OsN I_none].
Lemma l_hsubps : limplements e_hsubps.
Proof. eapply xm_entry; [intros; reflexivity|chk]. Qed.
Definition e_addsubpd := mkLE "addsubpd"%string [tX; tOx] (ro i_addsubpd) [xrow P66 1 0xD0 OsN I_none].
Lemma l_addsubpd : limplements e_addsubpd.
Proof. eapply xm_entry; [intros; reflexivity|chk]. Qed.
Definition e_addsubps := mkLE "addsubps"%string [tX; tOx] (ro i_addsubps) [xrow PF2 1 0xD0 OsN I_none].
Lemma l_addsubps : limplements e_addsubps.
Proof. eapply xm_entry; [intros; reflexivity|chk]. Qed.
Definition e_punpcklqdq := mkLE "punpcklqdq"%string [tX; tOx] (ro i_punpcklqdq) [xrow P66 1 0x6C OsN I_none].
Lemma l_punpcklqdq : limplements e_punpcklqdq.
Proof. eapply xm_entry; [intros; reflexivity|chk]. Qed.
Definition e_punpckhqdq := mkLE "punpckhqdq"%string [tX; tOx] (ro i_punpckhqdq) [xrow P66 1 0x6D OsN I_none].
Lemma l_punpckhqdq : limplements e_punpckhqdq.
Proof. eapply xm_entry; [intros; reflexivity|chk]. Qed.
Definition e_movddup := mkLE "movddup"%string [tX; tOx] (ro i_movddup) [xrow PF2 1 0x12 OsN I_none].
Lemma l_movddup : limplements e_movddup.
Proof. eapply xm_entry; [intros; reflexivity|chk]. Qed.
Definition e_movsldup := mkLE "movsldup"%string [tX; tOx] (ro i_movsldup) [xrow PF3 1 0x12 OsN I_none].
Lemma l_movsldup : limplements e_movsldup.
Proof. eapply xm_entry; [intros; reflexivity|chk]. Qed.
Definition e_movshdup := mkLE "movshdup"%string [tX; tOx] (ro i_movshdup) [xrow PF3 1 0x16 OsN I_none].
Lemma l_movshdup : limplements e_movshdup.
Proof. eapply xm_entry; [intros; reflexivity|chk]. Qed.
Definition e_packusdw := mkLE "packusdw"%string [tX; tOx] (ro i_packusdw) [xrow P66 2 0x2B OsN I_none].
Lemma l_packusdw : limplements e_packusdw.
Proof. eapply xm_entry; [intros; reflexivity|chk]. Qed.
Definition e_pcmpeqq := mkLE "pcmpeqq"%string [tX; tOx] (ro i_pcmpeqq) [xrow P66 2 0x29 OsN I_none].
Lemma l_pcmpeqq : limplements e_pcmpeqq.
Proof. eapply xm_entry; [intros; reflexivity|chk]. Qed.
Definition e_pcmpgtq := mkLE "pcmpgtq"%string [tX; tOx] (ro i_pcmpgtq) [xrow P66 2 0x37 OsN I_none].
Lemma l_pcmpgtq : limplements e_pcmpgtq.
Proof. eapply xm_entry; [intros; reflexivity|chk]. Qed.
Definition e_pmuldq := mkLE "pmuldq"%string [tX; tOx] (ro i_pmuldq) [xrow P66 2 0x28 OsN I_none].
Lemma l_pmuldq : limplements e_pmuldq.
Proof. eapply xm_entry; [intros; reflexivity|chk]. Qed.
Definition e_pmulld := mkLE "pmulld"%string [tX; tOx] (ro i_pmulld) [xrow P66 2 0x40 OsN I_none].
Lemma l_pmulld : limplements e_pmulld.
Proof. eapply xm_entry; [intros; reflexivity|chk]. Qed.
Definition e_pminsb := mkLE "pminsb"%string [tX; tOx] (ro i_pminsb) [xrow P66 2 0x38 OsN I_none].
Lemma l_pminsb : limplements e_pminsb.
Proof. eapply xm_entry; [intros; reflexivity|chk]. Qed.
Definition e_pminsd := mkLE "pminsd"%string [tX; tOx] (ro i_pminsd) [xrow P66 2 0x39 OsN I_none].
Lemma l_pminsd : limplements e_pminsd.
Proof. eapply xm_entry; [intros; reflexivity|chk]. Qed.
Definition e_pminuw := mkLE "pminuw"%string [tX; tOx] (ro i_pminuw) [xrow P66 2 0x3A OsN I_none].
Lemma l_pminuw : limplements e_pminuw.
Proof. eapply xm_entry; [intros; reflexivity|chk]. Qed.
Definition e_pminud := mkLE "pminud"%string [tX; tOx] (ro i_pminud) [xrow P66 2 0x3B OsN I_none].
Lemma l_pminud : limplements e_pminud.
Proof. eapply xm_entry; [intros; reflexivity|chk]. Qed.
Definition e_pmaxsb := mkLE "pmaxsb"%string [tX; tOx] (ro i_pmaxsb) [xrow P66 2 0x3C OsN I_none].
Lemma l_pmaxsb : limplements e_pmaxsb.
Proof. eapply xm_entry; [intros; reflexivity|chk]. Qed.
Definition e_pmaxsd := mkLE "pmaxsd"%string [tX; tOx] (ro i_pmaxsd) [xrow P66 2 0x3D OsN I_none].
Lemma l_pmaxsd : limplements e_pmaxsd.
Proof. eapply xm_entry; [intros; reflexivity|chk]. Qed.
Definition e_pmaxuw := mkLE "pmaxuw"%string [tX; tOx] (ro i_pmaxuw) [xrow P66 2 0x3E OsN I_none].
Lemma l_pmaxuw : limplements e_pmaxuw.
Proof. eapply xm_entry; [intros; reflexivity|chk]. Qed.
Definition e_pmaxud := mkLE "pmaxud"%string [tX; tOx] (ro i_pmaxud) [xrow P66 2 0x3F OsN I_none].
Lemma l_pmaxud : limplements e_pmaxud.
Proof. eapply xm_entry; [intros; reflexivity|chk]. Qed.
Definition e_phminposuw := mkLE "phminposuw"%string [tX; tOx] (ro i_phminposuw) [xrow P66 2 0x41 OsN I_none].
Lemma l_phminposuw : limplements e_phminposuw.
Proof. eapply xm_entry; [intros; reflexivity|chk]. Qed.
Definition e_pblendvb := mkLE "pblendvb"%string [tX; tOx] (ro i_pblendvb) [xrow P66 2 0x10 OsN I_none].
Lemma l_pblendvb : limplements e_pblendvb.
Proof. eapply xm_entry; [intros; reflexivity|chk]. Qed.
Definition e_blendvps := mkLE "blendvps"%string [tX; tOx] (ro i_blendvps) [xrow P66 2 0x14 OsN I_none].
Lemma l_blendvps : limplements e_blendvps.
Proof. eapply xm_entry; [intros; reflexivity|chk]. Qed.
Definition e_blendvpd := mkLE "blendvpd"%string [tX; tOx] (ro i_blendvpd) [xrow P66 2 0x15 OsN I_none].
Lemma l_blendvpd : limplements e_blendvpd.
Proof. eapply xm_entry; [intros; reflexivity|chk]. Qed.
Definition e_ptest := mkLE "ptest"%string [tX; tOx] (ro i_ptest) [xrow P66 2 0x17 OsN I_none].
Lemma l_ptest : limplements e_ptest.
Proof. eapply xm_entry; [intros; reflexivity|chk]. Qed.
Definition e_pmovsxbw := mkLE "pmovsxbw"%string [tX; tOx] (ro i_pmovsxbw) [xrow P66 2 0x20 OsN I_none].
Lemma l_pmovsxbw : limplements e_pmovsxbw.
Proof. eapply xm_entry; [intros; reflexivity|chk]. Qed.
Definition e_pmovsxbd := mkLE "pmovsxbd"%string [tX; tOx] (ro i_pmovsxbd) [xrow P66 2 0x21 OsN I_none].
Lemma l_pmovsxbd : limplements e_pmovsxbd.
Proof. eapply xm_entry; [intros; reflexivity|chk]. Qed.
Definition e_pmovsxbq := mkLE "pmovsxbq"%string [tX; tOx] (ro i_pmovsxbq) [xrow P66 2 0x22 OsN I_none].
Lemma l_pmovsxbq : limplements e_pmovsxbq.
Proof. eapply xm_entry; [intros; reflexivity|chk]. Qed.
Definition e_pmovsxwd := mkLE "pmovsxwd"%string [tX; tOx] (ro i_pmovsxwd) [xrow P66 2 0x23 OsN I_none].
Lemma l_pmovsxwd : limplements e_pmovsxwd.
Proof. eapply xm_entry; [intros; reflexivity|chk]. Qed.
Definition e_pmovsxwq := mkLE "pmovsxwq"%string [tX; tOx] (ro i_pmovsxwq) [xrow P66 2 0x24 OsN I_none].
Lemma l_pmovsxwq : limplements e_pmovsxwq.
Proof. eapply xm_entry; [intros; reflexivity|chk]. Qed.
Definition e_pmovsxdq := mkLE "pmovsxdq"%string [tX; tOx] (ro i_pmovsxdq) [xrow P66 2 0x25 OsN I_none].
Lemma l_pmovsxdq : limplements e_pmovsxdq.
Proof. eapply xm_entry; [intros; reflexivity|chk]. Qed.
Definition e_pmovzxbw := mkLE "pmovzxbw"%string [tX; tOx] (ro i_pmovzxbw) [xrow P66 2 0x30 OsN I_none].
Lemma l_pmovzxbw : limplements e_pmovzxbw.
Proof. eapply xm_entry; [intros; reflexivity|chk]. Qed.
Definition e_pmovzxbd := mkLE "pmovzxbd"%string [tX; tOx] (ro i_pmovzxbd) [xrow P66 2 0x31 OsN I_none].
Lemma l_pmovzxbd : limplements e_pmovzxbd.
Proof. eapply xm_entry; [intros; reflexivity|chk]. Qed.
Definition e_pmovzxbq := mkLE "pmovzxbq"%string [tX; tOx] (ro i_pmovzxbq) [xrow P66 2 0x32 OsN I_none].
Lemma l_pmovzxbq : limplements e_pmovzxbq.
Proof. eapply xm_entry; [intros; reflexivity|chk]. Qed.
Definition e_pmovzxwd := mkLE "pmovzxwd"%string [tX; tOx] (ro i_pmovzxwd) [xrow P66 2 0x33 OsN I_none].
Lemma l_pmovzxwd : limplements e_pmovzxwd.
Proof. eapply xm_entry; [intros; reflexivity|chk]. Qed.
Definition e_pmovzxwq := mkLE "pmovzxwq"%string [tX; tOx] (ro i_pmovzxwq) [xrow P66 2 0x34 OsN I_none].
Lemma l_pmovzxwq : limplements e_pmovzxwq.
Proof. eapply xm_entry; [intros; reflexivity|chk]. Qed.
Definition e_pmovzxdq := mkLE "pmovzxdq"%string [tX; tOx] (ro i_pmovzxdq) [xrow P66 2 0x35 OsN I_none].
Lemma l_pmovzxdq : limplements e_pmovzxdq.
Proof. eapply xm_entry; [intros; reflexivity|chk]. Qed.
Definition e_aesimc := mkLE "aesimc"%string [tX; tOx] (ro i_aesimc) [xrow P66 2 0xDB OsN I_none].
Lemma l_aesimc : limplements e_aesimc.
Proof. eapply xm_entry; [intros; reflexivity|chk]. Qed.
Definition e_aesenc := mkLE "aesenc"%string [tX; tOx] (ro i_aesenc) [xrow P66 2 0xDC OsN I_none].
Lemma l_aesenc : limplements e_aesenc.
Proof. eapply xm_entry; [intros; reflexivity|chk]. Qed.
Definition e_aesenclast := mkLE "aesenclast"%string [tX; tOx] (ro i_aesenclast) [xrow P66 2 0xDD OsN I_none].
Lemma l_aesenclast : limplements e_aesenclast.
Proof. eapply xm_entry; [intros; reflexivity|chk]. Qed.
Definition e_aesdec := mkLE "aesdec"%string [tX; tOx] (ro i_aesdec) [xrow P66 2 0xDE OsN I_none].
Lemma l_aesdec : limplements e_aesdec.
Proof. eapply xm_entry; [intros; reflexivity|chk]. Qed.
Definition e_aesdeclast := mkLE "aesdeclast"%string [tX; tOx] (ro i_aesdeclast) [xrow P66 2 0xDF OsN I_none].
Lemma l_aesdeclast : limplements e_aesdeclast.
Proof. eapply xm_entry; [intros; reflexivity|chk]. Qed.
Definition e_gf2p8mulb := mkLE "gf2p8mulb"%string [tX; tOx] (ro i_gf2p8mulb) [xrow P66 2 0xCF OsN I_none].
Lemma l_gf2p8mulb : limplements e_gf2p8mulb.
Proof. eapply xm_entry; [intros; reflexivity|chk]. Qed.
Definition e_cmpps := mkLE "cmpps"%string [tX; tOx] (roi i_cmpps) [xrow NP 1 0xC2 OsN I_8].
Lemma l_cmpps : limplements e_cmpps.
Proof. eapply xmi_entry; [intros; reflexivity|imm8|chk]. Qed.
Definition e_cmppd := mkLE "cmppd"%string [tX; tOx] (roi i_cmppd) [xrow P66 1 0xC2 OsN I_8].
Lemma l_cmppd : limplements e_cmppd.
Proof. eapply xmi_entry; [intros; reflexivity|imm8|chk]. Qed.
Definition e_cmpss := mkLE "cmpss"%string [tX; tOx] (roi i_cmpss) [xrow PF3 1 0xC2 OsN I_8].
Lemma l_cmpss : limplements e_cmpss.
Proof. eapply xmi_entry; [intros; reflexivity|imm8|chk]. Qed.
Definition e_cmpsd_xoi := mkLE "cmpsd"%string [tX; tOx] (roi i_cmpsd_xoi) [xrow PF2 1 0xC2 OsN I_8].
Lemma l_cmpsd_xoi : limplements e_cmpsd_xoi.
Proof. eapply xmi_entry; [intros; reflexivity|imm8|chk]. Qed.
Definition e_shufps := mkLE "shufps"%string [tX; tOx] (roi i_shufps) [xrow NP 1 0xC6 OsN I_8].
Lemma l_shufps : limplements e_shufps.
Proof. eapply xmi_entry; [intros; reflexivity|imm8|chk]. Qed.
Definition e_shufpd := mkLE "shufpd"%string [tX; tOx] (roi i_shufpd) [xrow P66 1 0xC6 OsN I_8].
Lemma l_shufpd : limplements e_shufpd.
Proof. eapply xmi_entry; [intros; reflexivity|imm8|chk]. Qed.
Definition e_roundps := mkLE "roundps"%string [tX; tOx] (roi i_roundps) [xrow P66 3 0x08 OsN I_8].
Lemma l_roundps : limplements e_roundps.
Proof. eapply xmi_entry; [intros; reflexivity|imm8|chk]. Qed.
Definition e_roundpd := mkLE "roundpd"%string [tX; tOx] (roi i_roundpd) [xrow P66 3 0x09 OsN I_8].
Lemma l_roundpd : limplements e_roundpd.
Proof. eapply xmi_entry; [intros; reflexivity|imm8|chk]. Qed.
Definition e_roundss := mkLE "roundss"%string [tX; tOx] (roi i_roundss) [xrow P66 3 0x0A OsN I_8].
Lemma l_roundss : limplements e_roundss.
Proof. eapply xmi_entry; [intros; reflexivity|imm8|chk]. Qed.
Definition e_roundsd := mkLE "roundsd"%string [tX; tOx] (roi i_roundsd) [xrow P66 3 0x0B OsN I_8].
Lemma l_roundsd : limplements e_roundsd.
Proof. eapply xmi_entry; [intros; reflexivity|imm8|chk]. Qed.
Definition e_blendps := mkLE "blendps"%string [tX; tOx] (roi i_blendps) [xrow P66 3 0x0C OsN I_8].
Lemma l_blendps : limplements e_blendps.
Proof. eapply xmi_entry; [intros; reflexivity|imm8|chk]. Qed.
Definition e_blendpd := mkLE "blendpd"%string [tX; tOx] (roi i_blendpd) [xrow P66 3 0x0D OsN I_8].
Lemma l_blendpd : limplements e_blendpd.
Proof. eapply xmi_entry; [intros; reflexivity|imm8|chk]. Qed.
Definition e_pblendw := mkLE "pblendw"%string [tX; tOx] (roi i_pblendw) [xrow P66 3 0x0E OsN I_8].
Lemma l_pblendw : limplements e_pblendw.
Proof. eapply xmi_entry; [intros; reflexivity|imm8|chk]. Qed.
Definition e_insertps := mkLE "insertps"%string [tX; tOx] (roi i_insertps) [xrow P66 3 0x21 OsN I_8].
Lemma l_insertps : limplements e_insertps.
Proof. eapply xmi_entry; [intros; reflexivity|imm8|chk]. Qed.
Definition e_dpps := mkLE "dpps"%string [tX; tOx] (roi i_dpps) [xrow P66 3 0x40 OsN I_8].
Lemma l_dpps : limplements e_dpps.
Proof. eapply xmi_entry; [intros; reflexivity|imm8|chk]. Qed.
Definition e_dppd := mkLE "dppd"%string [tX; tOx] (roi i_dppd) [xrow P66 3 0x41 OsN I_8].
Lemma l_dppd : limplements e_dppd.
Proof. eapply xmi_entry; [intros; reflexivity|imm8|chk]. Qed.
Definition e_mpsadbw := mkLE "mpsadbw"%string [tX; tOx] (roi i_mpsadbw) [xrow P66 3 0x42 OsN I_8].
Lemma l_mpsadbw : limplements e_mpsadbw.
Proof. eapply xmi_entry; [intros; reflexivity|imm8|chk]. Qed.
Definition e_pclmulqdq := mkLE "pclmulqdq"%string [tX; tOx] (roi i_pclmulqdq) [xrow P66 3 0x44 OsN I_8].
Lemma l_pclmulqdq : limplements e_pclmulqdq.
Proof. eapply xmi_entry; [intros; reflexivity|imm8|chk]. Qed.
Definition e_pcmpestrm := mkLE "pcmpestrm"%string [tX; tOx] (roi i_pcmpestrm) [xrow P66 3 0x60 OsN I_8].
Lemma l_pcmpestrm : limplements e_pcmpestrm.
Proof. eapply xmi_entry; [intros; reflexivity|imm8|chk]. Qed.
Definition e_pcmpestri := mkLE "pcmpestri"%string [tX; tOx] (roi i_pcmpestri) [xrow P66 3 0x61 OsN I_8].
Lemma l_pcmpestri : limplements e_pcmpestri.
Proof. eapply xmi_entry; [intros; reflexivity|imm8|chk]. Qed.
Definition e_pcmpistrm := mkLE "pcmpistrm"%string [tX; tOx] (roi i_pcmpistrm) [xrow P66 3 0x62 OsN I_8].
Lemma l_pcmpistrm : limplements e_pcmpistrm.
Proof. eapply xmi_entry; [intros; reflexivity|imm8|chk]. Qed.
Definition e_pcmpistri := mkLE "pcmpistri"%string [tX; tOx] (roi i_pcmpistri) [xrow P66 3 0x63 OsN I_8].
Lemma l_pcmpistri : limplements e_pcmpistri.
Proof. eapply xmi_entry; [intros; reflexivity|imm8|chk]. Qed.
Definition e_aeskeygenassist := mkLE "aeskeygenassist"%string [tX; tOx] (roi i_aeskeygenassist) [xrow P66 3 0xDF OsN I_8].
Lemma l_aeskeygenassist : limplements e_aeskeygenassist.
Proof. eapply xmi_entry; [intros; reflexivity|imm8|chk]. Qed.
Definition e_gf2p8affineqb := mkLE "gf2p8affineqb"%string [tX; tOx] (roi i_gf2p8affineqb) [xrow P66 3 0xCE OsN I_8].
Lemma l_gf2p8affineqb : limplements e_gf2p8affineqb.
Proof. eapply xmi_entry; [intros; reflexivity|imm8|chk]. Qed.
Definition e_gf2p8affineinvqb := mkLE "gf2p8affineinvqb"%string [tX; tOx] (roi i_gf2p8affineinvqb) [xrow P66 3 0xCF OsN I_8].
Lemma l_gf2p8affineinvqb : limplements e_gf2p8affineinvqb.
Proof. eapply xmi_entry; [intros; reflexivity|imm8|chk]. Qed.
Definition e_punpcklbw := mkLE "punpcklbw"%string [tM; tOx] (ro i_punpcklbw) [mrow NP 1 0x60 I_none; xrow P66 1 0x60 OsN I_none].
Lemma l_punpcklbw : limplements e_punpcklbw.
Proof. eapply mx_entry; [intros; reflexivity|chk|chk]. Qed.
Definition e_punpcklwd := mkLE "punpcklwd"%string [tM; tOx] (ro i_punpcklwd) [mrow NP 1 0x61 I_none; xrow P66 1 0x61 OsN I_none].
Lemma l_punpcklwd : limplements e_punpcklwd.
Proof. eapply mx_entry; [intros; reflexivity|chk|chk]. Qed.
Definition e_punpckldq := mkLE "punpckldq"%string [tM; tOx] (ro i_punpckldq) [mrow NP 1 0x62 I_none; xrow P66 1 0x62 OsN I_none].
Lemma l_punpckldq : limplements e_punpckldq.
Proof. eapply mx_entry; [intros; reflexivity|chk|chk]. Qed.
Definition e_packsswb := mkLE "packsswb"%string [tM; tOx] (ro i_packsswb) [mrow NP 1 0x63 I_none; xrow P66 1 0x63 OsN I_none].
Lemma l_packsswb : limplements e_packsswb.
Proof. eapply mx_entry; [intros; reflexivity|chk|chk]. Qed.
Definition e_pcmpgtb := mkLE "pcmpgtb"%string [tM; tOx] (ro i_pcmpgtb) [mrow NP 1 0x64 I_none; xrow P66 1 0x64 OsN I_none].
Lemma l_pcmpgtb : limplements e_pcmpgtb.
Proof. eapply mx_entry; [intros; reflexivity|chk|chk]. Qed.
Definition e_pcmpgtw := mkLE "pcmpgtw"%string [tM; tOx] (ro i_pcmpgtw) [mrow NP 1 0x65 I_none; xrow P66 1 0x65 OsN I_none].
Lemma l_pcmpgtw : limplements e_pcmpgtw.
Proof. eapply mx_entry; [intros; reflexivity|chk|chk]. Qed.
Definition e_pcmpgtd := mkLE "pcmpgtd"%string [tM; tOx] (ro i_pcmpgtd) [mrow NP 1 0x66 I_none; xrow P66 1 0x66 OsN I_none].
Lemma l_pcmpgtd : limplements e_pcmpgtd.
Proof. eapply mx_entry; [intros; reflexivity|chk|chk]. Qed.
Definition e_packuswb := mkLE "packuswb"%string [tM; tOx] (ro i_packuswb) [mrow NP 1 0x67 I_none; xrow P66 1 0x67 OsN I_none].
Lemma l_packuswb : limplements e_packuswb.
Proof. eapply mx_entry; [intros; reflexivity|chk|chk]. Qed.
Definition e_punpckhbw := mkLE "punpckhbw"%string [tM; tOx] (ro i_punpckhbw) [mrow NP 1 0x68 I_none; xrow P66 1 0x68 OsN I_none].
Lemma l_punpckhbw : limplements e_punpckhbw.
Proof. eapply mx_entry; [intros; reflexivity|chk|chk]. Qed.
Definition e_punpckhwd := mkLE "punpckhwd"%string [tM; tOx] (ro i_punpckhwd) [mrow NP 1 0x69 I_none; xrow P66 1 0x69 OsN I_none].
Lemma l_punpckhwd : limplements e_punpckhwd.
Proof. eapply mx_entry; [intros; reflexivity|chk|chk]. Qed.
Definition e_punpckhdq := mkLE "punpckhdq"%string [tM; tOx] (ro i_punpckhdq) [mrow NP 1 0x6A I_none; xrow P66 1 0x6A OsN I_none].
Lemma l_punpckhdq : limplements e_punpckhdq.
Proof. eapply mx_entry; [intros; reflexivity|chk|chk]. Qed.
Definition e_packssdw := mkLE "packssdw"%string [tM; tOx] (ro i_packssdw) [mrow NP 1 0x6B I_none; xrow P66 1 0x6B OsN I_none].
Lemma l_packssdw : limplements e_packssdw.
Proof. eapply mx_entry; [intros; reflexivity|chk|chk]. Qed.
Definition e_pcmpeqb := mkLE "pcmpeqb"%string [tM; tOx] (ro i_pcmpeqb) [mrow NP 1 0x74 I_none; xrow P66 1 0x74 OsN I_none].
Lemma l_pcmpeqb : limplements e_pcmpeqb.
Proof. eapply mx_entry; [intros; reflexivity|chk|chk]. Qed.
Definition e_pcmpeqw := mkLE "pcmpeqw"%string [tM; tOx] (ro i_pcmpeqw) [mrow NP 1 0x75 I_none; xrow P66 1 0x75 OsN I_none].
Lemma l_pcmpeqw : limplements e_pcmpeqw.
Proof. eapply mx_entry; [intros; reflexivity|chk|chk]. Qed.
Definition e_pcmpeqd := mkLE "pcmpeqd"%string [tM; tOx] (ro i_pcmpeqd) [mrow NP 1 0x76 I_none; xrow P66 1 0x76 OsN I_none].
Lemma l_pcmpeqd : limplements e_pcmpeqd.
Proof. eapply mx_entry; [intros; reflexivity|chk|chk]. Qed.
Definition e_psrlw_mo := mkLE "psrlw"%string [tM; tOx] (ro i_psrlw_mo) [mrow NP 1 0xD1 I_none; xrow P66 1 0xD1 OsN I_none].
Lemma l_psrlw_mo : limplements e_psrlw_mo.
Proof. eapply mx_entry; [intros; reflexivity|chk|chk]. Qed.
Definition e_psrld_mo := mkLE "psrld"%string [tM; tOx] (ro i_psrld_mo) [mrow NP 1 0xD2 I_none; xrow P66 1 0xD2 OsN I_none].
Lemma l_psrld_mo : limplements e_psrld_mo.
Proof. eapply mx_entry; [intros; reflexivity|chk|chk]. Qed.
Definition e_psrlq_mo := mkLE "psrlq"%string [tM; tOx] (ro i_psrlq_mo) [mrow NP 1 0xD3 I_none; xrow P66 1 0xD3 OsN I_none].
Lemma l_psrlq_mo : limplements e_psrlq_mo.
Proof. eapply mx_entry; [intros; reflexivity|chk|chk]. Qed.
Definition e_paddq := mkLE "paddq"%string [tM; tOx] (ro i_paddq) [mrow NP 1 0xD4 I_none; xrow P66 1 0xD4 OsN I_none].
Lemma l_paddq : limplements e_paddq.
Proof. eapply mx_entry; [intros; reflexivity|chk|chk]. Qed.
Definition e_pmullw := mkLE "pmullw"%string [tM; tOx] (ro i_pmullw) [mrow NP 1 0xD5 I_none; xrow P66 1 0xD5 OsN I_none].
Lemma l_pmullw : limplements e_pmullw.
Proof. eapply mx_entry; [intros; reflexivity|chk|chk]. Qed.
Definition e_psubusb := mkLE "psubusb"%string [tM; tOx] (ro i_psubusb) [mrow NP 1 0xD8 I_none; xrow P66 1 0xD8 OsN I_none].
Lemma l_psubusb : limplements e_psubusb.
Proof. eapply mx_entry; [intros; reflexivity|chk|chk]. Qed.
Definition e_psubusw := mkLE "psubusw"%string [tM; tOx] (ro i_psubusw) [mrow NP 1 0xD9 I_none; xrow P66 1 0xD9 OsN I_none].
Lemma l_psubusw : limplements e_psubusw.
Proof. eapply mx_entry; [intros; reflexivity|chk|chk]. Qed.
Definition e_pminub := mkLE "pminub"%string [tM; tOx] (ro i_pminub) [mrow NP 1 0xDA I_none; xrow P66 1 0xDA OsN I_none].
Lemma l_pminub : limplements e_pminub.
Proof. eapply mx_entry; [intros; reflexivity|chk|chk]. Qed.
Definition e_pand := mkLE "pand"%string [tM; tOx] (ro i_pand) [mrow NP 1 0xDB I_none; xrow P66 1 0xDB OsN I_none].
Lemma l_pand : limplements e_pand.
Proof. eapply mx_entry; [intros; reflexivity|chk|chk]. Qed.
Definition e_paddusb := mkLE "paddusb"%string [tM; tOx] (ro i_paddusb) [mrow NP 1 0xDC I_none; xrow P66 1 0xDC OsN I_none].
Lemma l_paddusb : limplements e_paddusb.
Proof. eapply mx_entry; [intros; reflexivity|chk|chk]. Qed.
Definition e_paddusw := mkLE "paddusw"%string [tM; tOx] (ro i_paddusw) [mrow NP 1 0xDD I_none; xrow P66 1 0xDD OsN I_none].
Lemma l_paddusw : limplements e_paddusw.
Proof. eapply mx_entry; [intros; reflexivity|chk|chk]. Qed.
Definition e_pmaxub := mkLE "pmaxub"%string [tM; tOx] (ro i_pmaxub) [mrow NP 1 0xDE I_none; xrow P66 1 0xDE OsN I_none].
Lemma l_pmaxub : limplements e_pmaxub.
Proof. eapply mx_entry; [intros; reflexivity|chk|chk]. Qed.
Definition e_pandn := mkLE "pandn"%string [tM; tOx] (ro i_pandn) [mrow NP 1 0xDF I_none; xrow P66 1 0xDF OsN I_none].
Lemma l_pandn : limplements e_pandn.
Proof. eapply mx_entry; [intros; reflexivity|chk|chk]. Qed.
Definition e_pavgb := mkLE "pavgb"%string [tM; tOx] (ro i_pavgb) [mrow NP 1 0xE0 I_none; xrow P66 1 0xE0 OsN I_none].
Lemma l_pavgb : limplements e_pavgb.
Proof. eapply mx_entry; [intros; reflexivity|chk|chk]. Qed.
Definition e_psraw_mo := mkLE "psraw"%string [tM; tOx] (ro i_psraw_mo) [mrow NP 1 0xE1 I_none; xrow P66 1 0xE1 OsN I_none].
Lemma l_psraw_mo : limplements e_psraw_mo.
Proof. eapply mx_entry; [intros; reflexivity|chk|chk]. Qed.
Definition e_psrad_mo := mkLE "psrad"%string [tM; tOx] (ro i_psrad_mo) [mrow NP 1 0xE2 I_none; xrow P66 1 0xE2 OsN I_none].
Lemma l_psrad_mo : limplements e_psrad_mo.
Proof. eapply mx_entry; [intros; reflexivity|chk|chk]. Qed.
Definition e_pavgw := mkLE "pavgw"%string [tM; tOx] (ro i_pavgw) [mrow NP 1 0xE3 I_none; xrow P66 1 0xE3 OsN I_none].
Lemma l_pavgw : limplements e_pavgw.
Proof. eapply mx_entry; [intros; reflexivity|chk|chk]. Qed.
Definition e_pmulhuw := mkLE "pmulhuw"%string [tM; tOx] (ro i_pmulhuw) [mrow NP 1 0xE4 I_none; xrow P66 1 0xE4 OsN I_none].
Lemma l_pmulhuw : limplements e_pmulhuw.
Proof. eapply mx_entry; [intros; reflexivity|chk|chk]. Qed.
Definition e_pmulhw := mkLE "pmulhw"%string [tM; tOx] (ro i_pmulhw) [mrow NP 1 0xE5 I_none; xrow P66 1 0xE5 OsN I_none].
Lemma l_pmulhw : limplements e_pmulhw.
Proof. eapply mx_entry; [intros; reflexivity|chk|chk]. Qed.
Definition e_psubsb := mkLE "psubsb"%string [tM; tOx] (ro i_psubsb) [mrow NP 1 0xE8 I_none; xrow P66 1 0xE8 OsN I_none].
Lemma l_psubsb : limplements e_psubsb.
Proof. eapply mx_entry; [intros; reflexivity|chk|chk]. Qed.
Definition e_psubsw := mkLE "psubsw"%string [tM; tOx] (ro i_psubsw) [mrow NP 1 0xE9 I_none; xrow P66 1 0xE9 OsN I_none].
Lemma l_psubsw : limplements e_psubsw.
Proof. eapply mx_entry; [intros; reflexivity|chk|chk]. Qed.
Definition e_pminsw := mkLE "pminsw"%string [tM; tOx] (ro i_pminsw) [mrow NP 1 0xEA I_none; xrow P66 1 0xEA OsN I_none].
Lemma l_pminsw : limplements e_pminsw.
Proof. eapply mx_entry; [intros; reflexivity|chk|chk]. Qed.
Definition e_por := mkLE "por"%string [tM; tOx] (ro i_por) [mrow NP 1 0xEB I_none; xrow P66 1 0xEB OsN I_none].
Lemma l_por : limplements e_por.
Proof. eapply mx_entry; [intros; reflexivity|chk|chk]. Qed.
Definition e_paddsb := mkLE "paddsb"%string [tM; tOx] (ro i_paddsb) [mrow NP 1 0xEC I_none; xrow P66 1 0xEC OsN I_none].
Lemma l_paddsb : limplements e_paddsb.
Proof. eapply mx_entry; [intros; reflexivity|chk|chk]. Qed.
Definition e_paddsw := mkLE "paddsw"%string [tM; tOx] (ro i_paddsw) [mrow NP 1 0xED I_none; xrow P66 1 0xED OsN I_none].
Lemma l_paddsw : limplements e_paddsw.
Proof. eapply mx_entry; [intros; reflexivity|chk|chk]. Qed.
Definition e_pmaxsw := mkLE "pmaxsw"%string [tM; tOx] (ro i_pmaxsw) [mrow NP 1 0xEE I_none; xrow P66 1 0xEE OsN I_none].
Lemma l_pmaxsw : limplements e_pmaxsw.
Proof. eapply mx_entry; [intros; reflexivity|chk|chk]. Qed.
Definition e_pxor := mkLE "pxor"%string [tM; tOx] (ro i_pxor) [mrow NP 1 0xEF I_none; xrow P66 1 0xEF OsN I_none].
Lemma l_pxor : limplements e_pxor.
Proof. eapply mx_entry; [intros; reflexivity|chk|chk]. Qed.
Definition e_psllw_mo := mkLE "psllw"%string [tM; tOx] (ro i_psllw_mo) [mrow NP 1 0xF1 I_none; xrow P66 1 0xF1 OsN I_none].
Lemma l_psllw_mo : limplements e_psllw_mo.
Proof. eapply mx_entry; [intros; reflexivity|chk|chk]. Qed.
Definition e_pslld_mo := mkLE "pslld"%string [tM; tOx] (ro i_pslld_mo) [mrow NP 1 0xF2 I_none; xrow P66 1 0xF2 OsN I_none].
Lemma l_pslld_mo : limplements e_pslld_mo.
Proof. eapply mx_entry; [intros; reflexivity|chk|chk]. Qed.
Definition e_psllq_mo := mkLE "psllq"%string [tM; tOx] (ro i_psllq_mo) [mrow NP 1 0xF3 I_none; xrow P66 1 0xF3 OsN I_none].
Lemma l_psllq_mo : limplements e_psllq_mo.
Proof. eapply mx_entry; [intros; reflexivity|chk|chk]. Qed.
Definition e_pmuludq := mkLE "pmuludq"%string [tM; tOx] (ro i_pmuludq) [mrow NP 1 0xF4 I_none; xrow P66 1 0xF4 OsN I_none].
Lemma l_pmuludq : limplements e_pmuludq.
Proof. eapply mx_entry; [intros; reflexivity|chk|chk]. Qed.
Definition e_pmaddwd := mkLE "pmaddwd"%string [tM; tOx] (ro i_pmaddwd) [mrow NP 1 0xF5 I_none; xrow P66 1 0xF5 OsN I_none].
Lemma l_pmaddwd : limplements e_pmaddwd.
Proof. eapply mx_entry; [intros; reflexivity|chk|chk]. Qed.
Definition e_psadbw := mkLE "psadbw"%string [tM; tOx] (ro i_psadbw) [mrow NP 1 0xF6 I_none; xrow P66 1 0xF6 OsN I_none].
Lemma l_psadbw : limplements e_psadbw.
Proof. eapply mx_entry; [intros; reflexivity|chk|chk]. Qed.
Definition e_psubb := mkLE "psubb"%string [tM; tOx] (ro i_psubb) [mrow NP 1 0xF8 I_none; xrow P66 1 0xF8 OsN I_none].
Lemma l_psubb : limplements e_psubb.
Proof. eapply mx_entry; [intros; reflexivity|chk|chk]. Qed.
Definition e_psubw := mkLE "psubw"%string [tM; tOx] (ro i_psubw) [mrow NP 1 0xF9 I_none; xrow P66 1 0xF9 OsN I_none].
Lemma l_psubw : limplements e_psubw.
Proof. eapply mx_entry; [intros; reflexivity|chk|chk]. Qed.
Definition e_psubd := mkLE "psubd"%string [tM; tOx] (ro i_psubd) [mrow NP 1 0xFA I_none; xrow P66 1 0xFA OsN I_none].
Lemma l_psubd : limplements e_psubd.
Proof. eapply mx_entry; [intros; reflexivity|chk|chk]. Qed.
Definition e_psubq := mkLE "psubq"%string [tM; tOx] (ro i_psubq) [mrow NP 1 0xFB I_none; xrow P66 1 0xFB OsN I_none].
Lemma l_psubq : limplements e_psubq.
Proof. eapply mx_entry; [intros; reflexivity|chk|chk]. Qed.
Definition e_paddb := mkLE "paddb"%string [tM; tOx] (ro i_paddb) [mrow NP 1 0xFC I_none; xrow P66 1 0xFC OsN I_none].
Lemma l_paddb : limplements e_paddb.
Proof. eapply mx_entry; [intros; reflexivity|chk|chk]. Qed.
Definition e_paddw := mkLE "paddw"%string [tM; tOx] (ro i_paddw) [mrow NP 1 0xFD I_none; xrow P66 1 0xFD OsN I_none].
Lemma l_paddw : limplements e_paddw.
Proof. eapply mx_entry; [intros; reflexivity|chk|chk]. Qed.
Definition e_paddd := mkLE "paddd"%string [tM; tOx] (ro i_paddd) [mrow NP 1 0xFE I_none; xrow P66 1 0xFE OsN I_none].
Lemma l_paddd : limplements e_paddd.
Proof. eapply mx_entry; [intros; reflexivity|chk|chk]. Qed.
Definition e_pshufb := mkLE "pshufb"%string [tM; tOx] (ro i_pshufb) [mrow NP 2 0x00 I_none; xrow P66 2 0x00 OsN I_none].
Lemma l_pshufb : limplements e_pshufb.
Proof. eapply mx_entry; [intros; reflexivity|chk|chk]. Qed.
Definition e_phaddw := mkLE "phaddw"%string [tM; tOx] (ro i_phaddw) [mrow NP 2 0x01 I_none; xrow P66 2 0x01 OsN I_none].
Lemma l_phaddw : limplements e_phaddw.
Proof. eapply mx_entry; [intros; reflexivity|chk|chk]. Qed.
Definition e_phaddd := mkLE "phaddd"%string [tM; tOx] (ro i_phaddd) [mrow NP 2 0x02 I_none; xrow P66 2 0x02 OsN I_none].
Lemma l_phaddd : limplements e_phaddd.
Proof. eapply mx_entry; [intros; reflexivity|chk|chk]. Qed.
Definition e_phaddsw := mkLE "phaddsw"%string [tM; tOx] (ro i_phaddsw) [mrow NP 2 0x03 I_none; xrow P66 2 0x03 OsN I_none].
Lemma l_phaddsw : limplements e_phaddsw.
Proof. eapply mx_entry; [intros; reflexivity|chk|chk]. Qed.
Definition e_pmaddubsw := mkLE "pmaddubsw"%string [tM; tOx] (ro i_pmaddubsw) [mrow NP 2 0x04 I_none; xrow P66 2 0x04 OsN I_none].
Lemma l_pmaddubsw : limplements e_pmaddubsw.
Proof. eapply mx_entry; [intros; reflexivity|chk|chk]. Qed.
Definition e_phsubw := mkLE "phsubw"%string [tM; tOx] (ro i_phsubw) [mrow NP 2 0x05 I_none; xrow P66 2 0x05 OsN I_none].
Lemma l_phsubw : limplements e_phsubw.
Proof. eapply mx_entry; [intros; reflexivity|chk|chk]. Qed.
Definition e_phsubd := mkLE "phsubd"%string [tM; tOx] (ro i_phsubd) [mrow NP 2 0x06 I_none; xrow P66 2 0x06 OsN I_none].
Lemma l_phsubd : limplements e_phsubd.
Proof. eapply mx_entry; [intros; reflexivity|chk|chk]. Qed.
Definition e_phsubsw := mkLE "phsubsw"%string [tM; tOx] (ro i_phsubsw) [mrow NP 2 0x07 I_none; xrow P66 2 0x07 OsN I_none].
Lemma l_phsubsw : limplements e_phsubsw.
Proof. eapply mx_entry; [intros; reflexivity|chk|chk]. Qed.
Definition e_psignb := mkLE "psignb"%string [tM; tOx] (ro i_psignb) [mrow NP 2 0x08 I_none; xrow P66 2 0x08 OsN I_none].
Lemma l_psignb : limplements e_psignb.
Proof. eapply mx_entry; [intros; reflexivity|chk|chk]. Qed.
Definition e_psignw := mkLE "psignw"%string [tM; tOx] (ro i_psignw) [mrow NP 2 0x09 I_none; xrow P66 2 0x09 OsN I_none].
Lemma l_psignw : limplements e_psignw.
Proof. eapply mx_entry; [intros; reflexivity|chk|chk]. Qed.
Definition e_psignd := mkLE "psignd"%string [tM; tOx] (ro i_psignd) [mrow NP 2 0x0A I_none; xrow P66 2 0x0A OsN I_none].
Lemma l_psignd : limplements e_psignd.
Proof. eapply mx_entry; [intros; reflexivity|chk|chk]. Qed.
Definition e_pmulhrsw := mkLE "pmulhrsw"%string [tM; tOx] (ro i_pmulhrsw) [mrow NP 2 0x0B I_none; xrow P66 2 0x0B OsN I_none].
Lemma l_pmulhrsw : limplements e_pmulhrsw.
Proof. eapply mx_entry; [intros; reflexivity|chk|chk]. Qed.
Definition e_pabsb := mkLE "pabsb"%string [tM; tOx] (ro i_pabsb) [mrow NP 2 0x1C I_none; xrow P66 2 0x1C OsN I_none].
Lemma l_pabsb : limplements e_pabsb.
Proof. eapply mx_entry; [intros; reflexivity|chk|chk]. Qed.
Definition e_pabsw := mkLE "pabsw"%string [tM; tOx] (ro i_pabsw) [mrow NP 2 0x1D I_none; xrow P66 2 0x1D OsN I_none].
Lemma l_pabsw : limplements e_pabsw.
Proof. eapply mx_entry; [intros; reflexivity|chk|chk]. Qed.
Definition e_pabsd := mkLE "pabsd"%string [tM; tOx] (ro i_pabsd) [mrow NP 2 0x1E I_none; xrow P66 2 0x1E OsN I_none].
Lemma l_pabsd : limplements e_pabsd.
Proof. eapply mx_entry; [intros; reflexivity|chk|chk]. Qed.
Definition e_palignr := mkLE "palignr"%string [tM; tOx] (roi i_palignr) [mrow NP 3 0x0F I_8; xrow P66 3 0x0F OsN I_8].
Lemma l_palignr : limplements e_palignr.
Proof. eapply mxi_entry; [intros; reflexivity|imm8|chk|chk]. Qed.
Definition e_movups_xo := mkLE "movups"%string [tX; tOx] (ro i_movups_xo) [xrow NP 1 0x10 OsN I_none].
Lemma l_movups_xo : limplements e_movups_xo.
Proof. eapply mxx_entry; [intros; reflexivity|chk]. Qed.
Definition e_movupd_xo := mkLE "movupd"%string [tX; tOx] (ro i_movupd_xo) [xrow P66 1 0x10 OsN I_none].
Lemma l_movupd_xo : limplements e_movupd_xo.
Proof. eapply mxx_entry; [intros; reflexivity|chk]. Qed.
Definition e_movss_xo := mkLE "movss"%string [tX; tOx] (ro i_movss_xo) [xrow PF3 1 0x10 OsN I_none].
Lemma l_movss_xo : limplements e_movss_xo.
Proof. eapply mxx_entry; [intros; reflexivity|chk]. Qed.
Definition e_movsd_xo := mkLE "movsd"%string [tX; tOx] (ro i_movsd_xo) [xrow PF2 1 0x10 OsN I_none].
Lemma l_movsd_xo : limplements e_movsd_xo.
Proof. eapply mxx_entry; [intros; reflexivity|chk]. Qed.
Definition e_movaps_xo := mkLE "movaps"%string [tX; tOx] (ro i_movaps_xo) [xrow NP 1 0x28 OsN I_none].
Lemma l_movaps_xo : limplements e_movaps_xo.
Proof. eapply mxx_entry; [intros; reflexivity|chk]. Qed.
Definition e_movapd_xo := mkLE "movapd"%string [tX; tOx] (ro i_movapd_xo) [xrow P66 1 0x28 OsN I_none].
Lemma l_movapd_xo : limplements e_movapd_xo.
Proof. eapply mxx_entry; [intros; reflexivity|chk]. Qed.
Definition e_movdqa_xo := mkLE "movdqa"%string [tX; tOx] (ro i_movdqa_xo) [xrow P66 1 0x6F OsN I_none].
Lemma l_movdqa_xo : limplements e_movdqa_xo.
Proof. eapply mxx_entry; [intros; reflexivity|chk]. Qed.
Definition e_movdqu_xo := mkLE "movdqu"%string [tX; tOx] (ro i_movdqu_xo) [xrow PF3 1 0x6F OsN I_none].
Lemma l_movdqu_xo : limplements e_movdqu_xo.
Proof. eapply mxx_entry; [intros; reflexivity|chk]. Qed.
Definition e_pshufd := mkLE "pshufd"%string [tX; tOx] (roi i_pshufd) [xrow P66 1 0x70 OsN I_8].
Lemma l_pshufd : limplements e_pshufd.
Proof. eapply mxxi_entry; [intros; reflexivity|imm8|chk]. Qed.
Definition e_pshufhw := mkLE "pshufhw"%string [tX; tOx] (roi i_pshufhw) [xrow PF3 1 0x70 OsN I_8].
Lemma l_pshufhw : limplements e_pshufhw.
Proof. eapply mxxi_entry; [intros; reflexivity|imm8|chk]. Qed.
Definition e_pshuflw := mkLE "pshuflw"%string [tX; tOx] (roi i_pshuflw) [xrow PF2 1 0x70 OsN I_8].
Lemma l_pshuflw : limplements e_pshuflw.
Proof. eapply mxxi_entry; [intros; reflexivity|imm8|chk]. Qed.
Definition e_pshufw := mkLE "pshufw"%string [tMm; tOx] (roi i_pshufw) [mrow NP 1 0x70 I_8].
Lemma l_pshufw : limplements e_pshufw.
Proof. eapply mmi_entry; [intros; reflexivity|imm8|chk]. Qed.
Definition legacy_table : list lentry := [
  e_addps; e_addpd; e_addss; e_addsd; e_mulps; e_mulpd; e_mulss; e_mulsd;
  e_subps; e_subpd; e_subss; e_subsd; e_minps; e_minpd; e_minss; e_minsd;
  e_divps; e_divpd; e_divss; e_divsd; e_maxps; e_maxpd; e_maxss; e_maxsd;
  e_sqrtps; e_sqrtpd; e_sqrtss; e_sqrtsd; e_rsqrtps; e_rsqrtss; e_rcpps; e_rcpss;
  e_andps; e_andpd; e_andnps; e_andnpd; e_orps; e_orpd; e_xorps; e_xorpd;
  e_unpcklps; e_unpcklpd; e_unpckhps; e_unpckhpd; e_ucomiss; e_ucomisd; e_comiss; e_comisd;
  e_cvtps2pd; e_cvtpd2ps; e_cvtss2sd; e_cvtsd2ss; e_cvtdq2ps; e_cvtps2dq; e_cvttps2dq; e_cvttpd2dq;
  e_cvtdq2pd; e_cvtpd2dq; e_haddpd; e_haddps; e_hsubpd; e_hsubps; e_addsubpd; e_addsubps;
  e_punpcklqdq; e_punpckhqdq; e_movddup; e_movsldup; e_movshdup; e_packusdw; e_pcmpeqq; e_pcmpgtq;
  e_pmuldq; e_pmulld; e_pminsb; e_pminsd; e_pminuw; e_pminud; e_pmaxsb; e_pmaxsd;
  e_pmaxuw; e_pmaxud; e_phminposuw; e_pblendvb; e_blendvps; e_blendvpd; e_ptest; e_pmovsxbw;
  e_pmovsxbd; e_pmovsxbq; e_pmovsxwd; e_pmovsxwq; e_pmovsxdq; e_pmovzxbw; e_pmovzxbd; e_pmovzxbq;
  e_pmovzxwd; e_pmovzxwq; e_pmovzxdq; e_aesimc; e_aesenc; e_aesenclast; e_aesdec; e_aesdeclast;
  e_gf2p8mulb; e_cmpps; e_cmppd; e_cmpss; e_cmpsd_xoi; e_shufps; e_shufpd; e_roundps;
  e_roundpd; e_roundss; e_roundsd; e_blendps; e_blendpd; e_pblendw; e_insertps; e_dpps;
  e_dppd; e_mpsadbw; e_pclmulqdq; e_pcmpestrm; e_pcmpestri; e_pcmpistrm; e_pcmpistri; e_aeskeygenassist;
  e_gf2p8affineqb; e_gf2p8affineinvqb; e_punpcklbw; e_punpcklwd; e_punpckldq; e_packsswb; e_pcmpgtb; e_pcmpgtw;
  e_pcmpgtd; e_packuswb; e_punpckhbw; e_punpckhwd; e_punpckhdq; e_packssdw; e_pcmpeqb; e_pcmpeqw;
  e_pcmpeqd; e_psrlw_mo; e_psrld_mo; e_psrlq_mo; e_paddq; e_pmullw; e_psubusb; e_psubusw;
  e_pminub; e_pand; e_paddusb; e_paddusw; e_pmaxub; e_pandn; e_pavgb; e_psraw_mo;
  e_psrad_mo; e_pavgw; e_pmulhuw; e_pmulhw; e_psubsb; e_psubsw; e_pminsw; e_por;
  e_paddsb; e_paddsw; e_pmaxsw; e_pxor; e_psllw_mo; e_pslld_mo; e_psllq_mo; e_pmuludq;
  e_pmaddwd; e_psadbw; e_psubb; e_psubw; e_psubd; e_psubq; e_paddb; e_paddw;
  e_paddd; e_pshufb; e_phaddw; e_phaddd; e_phaddsw; e_pmaddubsw; e_phsubw; e_phsubd;
  e_phsubsw; e_psignb; e_psignw; e_psignd; e_pmulhrsw; e_pabsb; e_pabsw; e_pabsd;
  e_palignr; e_movups_xo; e_movupd_xo; e_movss_xo; e_movsd_xo; e_movaps_xo; e_movapd_xo; e_movdqa_xo;
  e_movdqu_xo; e_pshufd; e_pshufhw; e_pshuflw; e_pshufw].
Lemma legacy_table_ok : Forall limplements legacy_table.
Proof.
  unfold legacy_table.
  apply Forall_cons; [exact l_addps|].
  apply Forall_cons; [exact l_addpd|].
  apply Forall_cons; [exact l_addss|].
  apply Forall_cons; [exact l_addsd|].
  apply Forall_cons; [exact l_mulps|].
  apply Forall_cons; [exact l_mulpd|].
  apply Forall_cons; [exact l_mulss|].
  apply Forall_cons; [exact l_mulsd|].
  apply Forall_cons; [exact l_subps|].
  apply Forall_cons; [exact l_subpd|].
  apply Forall_cons; [exact l_subss|].
  apply Forall_cons; [exact l_subsd|].
  apply Forall_cons; [exact l_minps|].
  apply Forall_cons; [exact l_minpd|].
  apply Forall_cons; [exact l_minss|].
  apply Forall_cons; [exact l_minsd|].
  apply Forall_cons; [exact l_divps|].
  apply Forall_cons; [exact l_divpd|].
  apply Forall_cons; [exact l_divss|].
  apply Forall_cons; [exact l_divsd|].
  apply Forall_cons; [exact l_maxps|].
  apply Forall_cons; [exact l_maxpd|].
  apply Forall_cons; [exact l_maxss|].
  apply Forall_cons; [exact l_maxsd|].
  apply Forall_cons; [exact l_sqrtps|].
  apply Forall_cons; [exact l_sqrtpd|].
  apply Forall_cons; [exact l_sqrtss|].
  apply Forall_cons; [exact l_sqrtsd|].
  apply Forall_cons; [exact l_rsqrtps|].
  apply Forall_cons; [exact l_rsqrtss|].
  apply Forall_cons; [exact l_rcpps|].
  apply Forall_cons; [exact l_rcpss|].
  apply Forall_cons; [exact l_andps|].
  apply Forall_cons; [exact l_andpd|].
  apply Forall_cons; [exact l_andnps|].
  apply Forall_cons; [exact l_andnpd|].
  apply Forall_cons; [exact l_orps|].
  apply Forall_cons; [exact l_orpd|].
  apply Forall_cons; [exact l_xorps|].
  apply Forall_cons; [exact l_xorpd|].
  apply Forall_cons; [exact l_unpcklps|].
  apply Forall_cons; [exact l_unpcklpd|].
  apply Forall_cons; [exact l_unpckhps|].
  apply Forall_cons; [exact l_unpckhpd|].
  apply Forall_cons; [exact l_ucomiss|].
  apply Forall_cons; [exact l_ucomisd|].
  apply Forall_cons; [exact l_comiss|].
  apply Forall_cons; [exact l_comisd|].
  apply Forall_cons; [exact l_cvtps2pd|].
  apply Forall_cons; [exact l_cvtpd2ps|].
  apply Forall_cons; [exact l_cvtss2sd|].
  apply Forall_cons; [exact l_cvtsd2ss|].
  apply Forall_cons; [exact l_cvtdq2ps|].
  apply Forall_cons; [exact l_cvtps2dq|].
  apply Forall_cons; [exact l_cvttps2dq|].
  apply Forall_cons; [exact l_cvttpd2dq|].
  apply Forall_cons; [exact l_cvtdq2pd|].
  apply Forall_cons; [exact l_cvtpd2dq|].
  apply Forall_cons; [exact l_haddpd|].
  apply Forall_cons; [exact l_haddps|].
  apply Forall_cons; [exact l_hsubpd|].
  apply Forall_cons; [exact l_hsubps|].
  apply Forall_cons; [exact l_addsubpd|].
  apply Forall_cons; [exact l_addsubps|].
  apply Forall_cons; [exact l_punpcklqdq|].
  apply Forall_cons; [exact l_punpckhqdq|].
  apply Forall_cons; [exact l_movddup|].
  apply Forall_cons; [exact l_movsldup|].
  apply Forall_cons; [exact l_movshdup|].
  apply Forall_cons; [exact l_packusdw|].
  apply Forall_cons; [exact l_pcmpeqq|].
  apply Forall_cons; [exact l_pcmpgtq|].
  apply Forall_cons; [exact l_pmuldq|].
  apply Forall_cons; [exact l_pmulld|].
  apply Forall_cons; [exact l_pminsb|].
  apply Forall_cons; [exact l_pminsd|].
  apply Forall_cons; [exact l_pminuw|].
  apply Forall_cons; [exact l_pminud|].
  apply Forall_cons; [exact l_pmaxsb|].
  apply Forall_cons; [exact l_pmaxsd|].
  apply Forall_cons; [exact l_pmaxuw|].
  apply Forall_cons; [exact l_pmaxud|].
  apply Forall_cons; [exact l_phminposuw|].
  apply Forall_cons; [exact l_pblendvb|].
  apply Forall_cons; [exact l_blendvps|].
  apply Forall_cons; [exact l_blendvpd|].
  apply Forall_cons; [exact l_ptest|].
  apply Forall_cons; [exact l_pmovsxbw|].
  apply Forall_cons; [exact l_pmovsxbd|].
  apply Forall_cons; [exact l_pmovsxbq|].
  apply Forall_cons; [exact l_pmovsxwd|].
  apply Forall_cons; [exact l_pmovsxwq|].
  apply Forall_cons; [exact l_pmovsxdq|].
  apply Forall_cons; [exact l_pmovzxbw|].
  apply Forall_cons; [exact l_pmovzxbd|].
  apply Forall_cons; [exact l_pmovzxbq|].
  apply Forall_cons; [exact l_pmovzxwd|].
  apply Forall_cons; [exact l_pmovzxwq|].
  apply Forall_cons; [exact l_pmovzxdq|].
  apply Forall_cons; [exact l_aesimc|].
  apply Forall_cons; [exact l_aesenc|].
  apply Forall_cons; [exact l_aesenclast|].
  apply Forall_cons; [exact l_aesdec|].
  apply Forall_cons; [exact l_aesdeclast|].
  apply Forall_cons; [exact l_gf2p8mulb|].
  apply Forall_cons; [exact l_cmpps|].
  apply Forall_cons; [exact l_cmppd|].
  apply Forall_cons; [exact l_cmpss|].
  apply Forall_cons; [exact l_cmpsd_xoi|].
  apply Forall_cons; [exact l_shufps|].
  apply Forall_cons; [exact l_shufpd|].
  apply Forall_cons; [exact l_roundps|].
  apply Forall_cons; [exact l_roundpd|].
  apply Forall_cons; [exact l_roundss|].
  apply Forall_cons; [exact l_roundsd|].
  apply Forall_cons; [exact l_blendps|].
  apply Forall_cons; [exact l_blendpd|].
  apply Forall_cons; [exact l_pblendw|].
  apply Forall_cons; [exact l_insertps|].
  apply Forall_cons; [exact l_dpps|].
  apply Forall_cons; [exact l_dppd|].
  apply Forall_cons; [exact l_mpsadbw|].
  apply Forall_cons; [exact l_pclmulqdq|].
  apply Forall_cons; [exact l_pcmpestrm|].
  apply Forall_cons; [exact l_pcmpestri|].
  apply Forall_cons; [exact l_pcmpistrm|].
  apply Forall_cons; [exact l_pcmpistri|].
  apply Forall_cons; [exact l_aeskeygenassist|].
  apply Forall_cons; [exact l_gf2p8affineqb|].
  apply Forall_cons; [exact l_gf2p8affineinvqb|].
  apply Forall_cons; [exact l_punpcklbw|].
  apply Forall_cons; [exact l_punpcklwd|].
  apply Forall_cons; [exact l_punpckldq|].
  apply Forall_cons; [exact l_packsswb|].
  apply Forall_cons; [exact l_pcmpgtb|].
  apply Forall_cons; [exact l_pcmpgtw|].
  apply Forall_cons; [exact l_pcmpgtd|].
  apply Forall_cons; [exact l_packuswb|].
  apply Forall_cons; [exact l_punpckhbw|].
  apply Forall_cons; [exact l_punpckhwd|].
  apply Forall_cons; [exact l_punpckhdq|].
  apply Forall_cons; [exact l_packssdw|].
  apply Forall_cons; [exact l_pcmpeqb|].
  apply Forall_cons; [exact l_pcmpeqw|].
  apply Forall_cons; [exact l_pcmpeqd|].
  apply Forall_cons; [exact l_psrlw_mo|].
  apply Forall_cons; [exact l_psrld_mo|].
  apply Forall_cons; [exact l_psrlq_mo|].
  apply Forall_cons; [exact l_paddq|].
  apply Forall_cons; [exact l_pmullw|].
  apply Forall_cons; [exact l_psubusb|].
  apply Forall_cons; [exact l_psubusw|].
  apply Forall_cons; [exact l_pminub|].
  apply Forall_cons; [exact l_pand|].
  apply Forall_cons; [exact l_paddusb|].
  apply Forall_cons; [exact l_paddusw|].
  apply Forall_cons; [exact l_pmaxub|].
  apply Forall_cons; [exact l_pandn|].
  apply Forall_cons; [exact l_pavgb|].
  apply Forall_cons; [exact l_psraw_mo|].
  apply Forall_cons; [exact l_psrad_mo|].
  apply Forall_cons; [exact l_pavgw|].
  apply Forall_cons; [exact l_pmulhuw|].
  apply Forall_cons; [exact l_pmulhw|].
  apply Forall_cons; [exact l_psubsb|].
  apply Forall_cons; [exact l_psubsw|].
  apply Forall_cons; [exact l_pminsw|].
  apply Forall_cons; [exact l_por|].
  apply Forall_cons; [exact l_paddsb|].
  apply Forall_cons; [exact l_paddsw|].
  apply Forall_cons; [exact l_pmaxsw|].
  apply Forall_cons; [exact l_pxor|].
  apply Forall_cons; [exact l_psllw_mo|].
  apply Forall_cons; [exact l_pslld_mo|].
  apply Forall_cons; [exact l_psllq_mo|].
  apply Forall_cons; [exact l_pmuludq|].
  apply Forall_cons; [exact l_pmaddwd|].
  apply Forall_cons; [exact l_psadbw|].
  apply Forall_cons; [exact l_psubb|].
  apply Forall_cons; [exact l_psubw|].
  apply Forall_cons; [exact l_psubd|].
  apply Forall_cons; [exact l_psubq|].
  apply Forall_cons; [exact l_paddb|].
  apply Forall_cons; [exact l_paddw|].
  apply Forall_cons; [exact l_paddd|].
  apply Forall_cons; [exact l_pshufb|].
  apply Forall_cons; [exact l_phaddw|].
  apply Forall_cons; [exact l_phaddd|].
  apply Forall_cons; [exact l_phaddsw|].
  apply Forall_cons; [exact l_pmaddubsw|].
  apply Forall_cons; [exact l_phsubw|].
  apply Forall_cons; [exact l_phsubd|].
  apply Forall_cons; [exact l_phsubsw|].
  apply Forall_cons; [exact l_psignb|].
  apply Forall_cons; [exact l_psignw|].
  apply Forall_cons; [exact l_psignd|].
  apply Forall_cons; [exact l_pmulhrsw|].
  apply Forall_cons; [exact l_pabsb|].
  apply Forall_cons; [exact l_pabsw|].
  apply Forall_cons; [exact l_pabsd|].
  apply Forall_cons; [exact l_palignr|].
  apply Forall_cons; [exact l_movups_xo|].
  apply Forall_cons; [exact l_movupd_xo|].
  apply Forall_cons; [exact l_movss_xo|].
  apply Forall_cons; [exact l_movsd_xo|].
  apply Forall_cons; [exact l_movaps_xo|].
  apply Forall_cons; [exact l_movapd_xo|].
  apply Forall_cons; [exact l_movdqa_xo|].
  apply Forall_cons; [exact l_movdqu_xo|].
  apply Forall_cons; [exact l_pshufd|].
  apply Forall_cons; [exact l_pshufhw|].
  apply Forall_cons; [exact l_pshuflw|].
  apply Forall_cons; [exact l_pshufw|].
  apply Forall_nil.
Qed.
