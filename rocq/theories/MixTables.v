(* Generated by tools/mixtab.py: remaining legacy-encoded instructions, the forms of the Intel SDM vol. 2. *)
From Coq Require Import ZArith List Bool String Lia.
From Verif Require Import Base Types Emit Encode Mnemonic SpecX86 SpecAddr SpecIsa SpecInsn SpecLeg SpecMix Wf EmitFacts BitFacts MemFacts LegacyFacts VexFacts EncThms LegFacts LegShapes LegGpr LegGpr2 LegGpr3 SseFacts SseShapes MixTac.
Import ListNotations.
Open Scope Z_scope.

Definition me_0 : mentry := mkME "cldemote"%string [aM [0; 8; 16; 32; 64; 128; 256; 512]] (f_a i_cldemote)
  [mkL NP 1 0x1C true (Some 0) [m_ Sany] Os0 I_none].
Lemma m_0 : mimplements me_0. Proof. dgt 0 32. Qed.
Definition me_1 : mentry := mkME "clflush"%string [aM [0; 8; 16; 32; 64; 128; 256; 512]] (f_a i_clflush)
  [mkL NP 1 0xAE true (Some 7) [m_ Sany] Os0 I_none].
Lemma m_1 : mimplements me_1. Proof. dgt 7 32. Qed.
Definition me_2 : mentry := mkME "clflushopt"%string [aM [0; 8; 16; 32; 64; 128; 256; 512]] (f_a i_clflushopt)
  [mkL P66 1 0xAE true (Some 7) [m_ Sany] Os0 I_none].
Lemma m_2 : mimplements me_2. Proof. dgt 7 32. Qed.
Definition me_3 : mentry := mkME "clwb"%string [aM [0; 8; 16; 32; 64; 128; 256; 512]] (f_a i_clwb)
  [mkL P66 1 0xAE true (Some 6) [m_ Sany] Os0 I_none].
Lemma m_3 : mimplements me_3. Proof. dgt 6 32. Qed.
Definition me_4 : mentry := mkME "cmpxchg8b"%string [aM [0; 8; 16; 32; 64; 128; 256; 512]] (f_a i_cmpxchg8b)
  [mkL NP 1 0xC7 true (Some 1) [m_ Sany] Os0 I_none].
Lemma m_4 : mimplements me_4. Proof. dgt 1 32. Qed.
Definition me_5 : mentry := mkME "cmpxchg16b"%string [aM [0; 8; 16; 32; 64; 128; 256; 512]] (f_a i_cmpxchg16b)
  [mkL NP 1 0xC7 true (Some 1) [m_ Sany] Os1 I_none].
Lemma m_5 : mimplements me_5. Proof. dgt 1 64. Qed.
Definition me_6 : mentry := mkME "fxrstor"%string [aM [0; 8; 16; 32; 64; 128; 256; 512]] (f_a i_fxrstor)
  [mkL NP 1 0xAE true (Some 1) [m_ Sany] Os0 I_none].
Lemma m_6 : mimplements me_6. Proof. dgt 1 32. Qed.
Definition me_7 : mentry := mkME "fxrstor64"%string [aM [0; 8; 16; 32; 64; 128; 256; 512]] (f_a i_fxrstor64)
  [mkL NP 1 0xAE true (Some 1) [m_ Sany] Os1 I_none].
Lemma m_7 : mimplements me_7. Proof. dgt 1 64. Qed.
Definition me_8 : mentry := mkME "ldmxcsr"%string [aM [0; 8; 16; 32; 64; 128; 256; 512]] (f_a i_ldmxcsr)
  [mkL NP 1 0xAE true (Some 2) [m_ Sany] Os0 I_none].
Lemma m_8 : mimplements me_8. Proof. dgt 2 32. Qed.
Definition me_9 : mentry := mkME "stmxcsr"%string [aM [0; 8; 16; 32; 64; 128; 256; 512]] (f_a i_stmxcsr)
  [mkL NP 1 0xAE true (Some 3) [m_ Sany] Os0 I_none].
Lemma m_9 : mimplements me_9. Proof. dgt 3 32. Qed.
Definition me_10 : mentry := mkME "prefetchnta"%string [aM [0; 8; 16; 32; 64; 128; 256; 512]] (f_a i_prefetchnta)
  [mkL NP 1 0x18 true (Some 0) [m_ Sany] Os0 I_none].
Lemma m_10 : mimplements me_10. Proof. dgt 0 32. Qed.
Definition me_11 : mentry := mkME "prefetcht0"%string [aM [0; 8; 16; 32; 64; 128; 256; 512]] (f_a i_prefetcht0)
  [mkL NP 1 0x18 true (Some 1) [m_ Sany] Os0 I_none].
Lemma m_11 : mimplements me_11. Proof. dgt 1 32. Qed.
Definition me_12 : mentry := mkME "prefetcht1"%string [aM [0; 8; 16; 32; 64; 128; 256; 512]] (f_a i_prefetcht1)
  [mkL NP 1 0x18 true (Some 2) [m_ Sany] Os0 I_none].
Lemma m_12 : mimplements me_12. Proof. dgt 2 32. Qed.
Definition me_13 : mentry := mkME "prefetcht2"%string [aM [0; 8; 16; 32; 64; 128; 256; 512]] (f_a i_prefetcht2)
  [mkL NP 1 0x18 true (Some 3) [m_ Sany] Os0 I_none].
Lemma m_13 : mimplements me_13. Proof. dgt 3 32. Qed.
Definition me_14 : mentry := mkME "prefetchit1"%string [aM [0; 8; 16; 32; 64; 128; 256; 512]] (f_a i_prefetchit1)
  [mkL NP 1 0x18 true (Some 6) [m_ Sany] Os0 I_none].
Lemma m_14 : mimplements me_14. Proof. dgt 6 32. Qed.
Definition me_15 : mentry := mkME "prefetchit0"%string [aM [0; 8; 16; 32; 64; 128; 256; 512]] (f_a i_prefetchit0)
  [mkL NP 1 0x18 true (Some 7) [m_ Sany] Os0 I_none].
Lemma m_15 : mimplements me_15. Proof. dgt 7 32. Qed.
Definition me_16 : mentry := mkME "prefetchw"%string [aM [0; 8; 16; 32; 64; 128; 256; 512]] (f_a i_prefetchw)
  [mkL NP 1 0x0D true (Some 1) [m_ Sany] Os0 I_none].
Lemma m_16 : mimplements me_16. Proof. dgt 1 32. Qed.
Definition me_17 : mentry := mkME "prefetchwt1"%string [aM [0; 8; 16; 32; 64; 128; 256; 512]] (f_a i_prefetchwt1)
  [mkL NP 1 0x0D true (Some 2) [m_ Sany] Os0 I_none].
Lemma m_17 : mimplements me_17. Proof. dgt 2 32. Qed.
Definition me_18 : mentry := mkME "fbld"%string [aM [0; 8; 16; 32; 64; 128; 256; 512]] (f_a i_fbld)
  [mkL NP 0 0xDF true (Some 4) [m_ Sany] Os0 I_none].
Lemma m_18 : mimplements me_18. Proof. dgt 4 32. Qed.
Definition me_19 : mentry := mkME "fbstp"%string [aM [0; 8; 16; 32; 64; 128; 256; 512]] (f_a i_fbstp)
  [mkL NP 0 0xDF true (Some 6) [m_ Sany] Os0 I_none].
Lemma m_19 : mimplements me_19. Proof. dgt 6 32. Qed.
Definition me_20 : mentry := mkME "fldcw"%string [aM [0; 8; 16; 32; 64; 128; 256; 512]] (f_a i_fldcw)
  [mkL NP 0 0xD9 true (Some 5) [m_ Sany] Os0 I_none].
Lemma m_20 : mimplements me_20. Proof. dgt 5 32. Qed.
Definition me_21 : mentry := mkME "fldenv"%string [aM [0; 8; 16; 32; 64; 128; 256; 512]] (f_a i_fldenv)
  [mkL NP 0 0xD9 true (Some 4) [m_ Sany] Os0 I_none].
Lemma m_21 : mimplements me_21. Proof. dgt 4 32. Qed.
Definition me_22 : mentry := mkME "fnsave"%string [aM [0; 8; 16; 32; 64; 128; 256; 512]] (f_a i_fnsave)
  [mkL NP 0 0xDD true (Some 6) [m_ Sany] Os0 I_none].
Lemma m_22 : mimplements me_22. Proof. dgt 6 32. Qed.
Definition me_23 : mentry := mkME "fnstcw"%string [aM [0; 8; 16; 32; 64; 128; 256; 512]] (f_a i_fnstcw)
  [mkL NP 0 0xD9 true (Some 7) [m_ Sany] Os0 I_none].
Lemma m_23 : mimplements me_23. Proof. dgt 7 32. Qed.
Definition me_24 : mentry := mkME "fnstenv"%string [aM [0; 8; 16; 32; 64; 128; 256; 512]] (f_a i_fnstenv)
  [mkL NP 0 0xD9 true (Some 6) [m_ Sany] Os0 I_none].
Lemma m_24 : mimplements me_24. Proof. dgt 6 32. Qed.
Definition me_25 : mentry := mkME "fnstsw_a"%string [aM [0; 8; 16; 32; 64; 128; 256; 512]] (f_a i_fnstsw_a)
  [mkL NP 0 0xDD true (Some 7) [m_ Sany] Os0 I_none].
Lemma m_25 : mimplements me_25. Proof. dgt 7 32. Qed.
Definition me_26 : mentry := mkME "frstor"%string [aM [0; 8; 16; 32; 64; 128; 256; 512]] (f_a i_frstor)
  [mkL NP 0 0xDD true (Some 4) [m_ Sany] Os0 I_none].
Lemma m_26 : mimplements me_26. Proof. dgt 4 32. Qed.
Definition me_27 : mentry := mkME "cvtpd2pi"%string [aAny; anyM [0; 8; 16; 32; 64; 128; 256; 512]] (f_ro i_cvtpd2pi)
  [mkL P66 1 0x2D true None [r_ KM Sany; rm_ KX true Sany] Os0 I_none].
Lemma m_27 : mimplements me_27. Proof. anyt vf_mx (@None bool) [SReg; SRm]. Qed.
Definition me_28 : mentry := mkME "cvttpd2pi"%string [aAny; anyM [0; 8; 16; 32; 64; 128; 256; 512]] (f_ro i_cvttpd2pi)
  [mkL P66 1 0x2C true None [r_ KM Sany; rm_ KX true Sany] Os0 I_none].
Lemma m_28 : mimplements me_28. Proof. anyt vf_mx (@None bool) [SReg; SRm]. Qed.
Definition me_29 : mentry := mkME "cvtps2pi"%string [aAny; anyM [0; 8; 16; 32; 64; 128; 256; 512]] (f_ro i_cvtps2pi)
  [mkL NP 1 0x2D true None [r_ KM Sany; rm_ KX true Sany] Os0 I_none].
Lemma m_29 : mimplements me_29. Proof. anyt vf_mx (@None bool) [SReg; SRm]. Qed.
Definition me_30 : mentry := mkME "cvttps2pi"%string [aAny; anyM [0; 8; 16; 32; 64; 128; 256; 512]] (f_ro i_cvttps2pi)
  [mkL NP 1 0x2C true None [r_ KM Sany; rm_ KX true Sany] Os0 I_none].
Lemma m_30 : mimplements me_30. Proof. anyt vf_mx (@None bool) [SReg; SRm]. Qed.
Definition me_31 : mentry := mkME "cvtpi2pd"%string [aAny; anyM [0; 8; 16; 32; 64; 128; 256; 512]] (f_ro i_cvtpi2pd)
  [mkL P66 1 0x2A true None [r_ KX Sany; rm_ KM true Sany] Os0 I_none].
Lemma m_31 : mimplements me_31. Proof. anyt vf_xm (@None bool) [SReg; SRm]. Qed.
Definition me_32 : mentry := mkME "cvtpi2ps"%string [aAny; anyM [0; 8; 32; 64; 128; 256; 512]] (f_ro i_cvtpi2ps)
  [mkL NP 1 0x2A true None [r_ KX Sany; rm_ KM true Sany] Os0 I_none].
Lemma m_32 : mimplements me_32. Proof. anyt vf_xm (@None bool) [SReg; SRm]. Qed.
Definition me_33 : mentry := mkME "cvtsd2si"%string [aAny; anyM [0; 8; 16; 32; 64; 128; 256; 512]] (f_ro i_cvtsd2si)
  [mkL PF2 1 0x2D true None [r_ KG Sv; rm_ KX true Sany] OsY I_none].
Lemma m_33 : mimplements me_33. Proof. anyt vf_gx (@None bool) [SReg; SRm]. Qed.
Definition me_34 : mentry := mkME "cvttsd2si"%string [aAny; anyM [0; 8; 16; 32; 64; 128; 256; 512]] (f_ro i_cvttsd2si)
  [mkL PF2 1 0x2C true None [r_ KG Sv; rm_ KX true Sany] OsY I_none].
Lemma m_34 : mimplements me_34. Proof. anyt vf_gx (@None bool) [SReg; SRm]. Qed.
Definition me_35 : mentry := mkME "cvtss2si"%string [aAny; anyM [0; 8; 16; 32; 64; 128; 256; 512]] (f_ro i_cvtss2si)
  [mkL PF3 1 0x2D true None [r_ KG Sv; rm_ KX true Sany] OsY I_none].
Lemma m_35 : mimplements me_35. Proof. anyt vf_gx (@None bool) [SReg; SRm]. Qed.
Definition me_36 : mentry := mkME "cvttss2si"%string [aAny; anyM [0; 8; 16; 32; 64; 128; 256; 512]] (f_ro i_cvttss2si)
  [mkL PF3 1 0x2C true None [r_ KG Sv; rm_ KX true Sany] OsY I_none].
Lemma m_36 : mimplements me_36. Proof. anyt vf_gx (@None bool) [SReg; SRm]. Qed.
Definition me_37 : mentry := mkME "cvtsi2sd"%string [aAny; anyM [0; 32]] (f_ro i_cvtsi2sd)
  [mkL PF2 1 0x2A true None [r_ KX Sany; rm_ KG false Sv] OsY I_none;
   mkL PF2 1 0x2A true None [r_ KX Sany; m_ (Sn 32)] Os0 I_none].
Lemma m_37 : mimplements me_37. Proof. anyt vf_xg (@None bool) [SReg; SRm]. Qed.
Definition me_38 : mentry := mkME "cvtsi2ss"%string [aAny; anyM [0; 32]] (f_ro i_cvtsi2ss)
  [mkL PF3 1 0x2A true None [r_ KX Sany; rm_ KG false Sv] OsY I_none;
   mkL PF3 1 0x2A true None [r_ KX Sany; m_ (Sn 32)] Os0 I_none].
Lemma m_38 : mimplements me_38. Proof. anyt vf_xg (@None bool) [SReg; SRm]. Qed.
Definition me_39 : mentry := mkME "maskmovdqu"%string [aX; aX] (f_rr i_maskmovdqu)
  [mkL P66 1 0xF7 true None [r_ KX Sany; rm_ KX false Sany] Os0 I_none].
Lemma m_39 : mimplements me_39. Proof. sset (@None bool) [SReg; SRm]. Qed.
Definition me_40 : mentry := mkME "maskmovq"%string [aMm; aMm] (f_rr i_maskmovq)
  [mkL NP 1 0xF7 true None [r_ KM Sany; rm_ KM false Sany] Os0 I_none].
Lemma m_40 : mimplements me_40. Proof. sset (@None bool) [SReg; SRm]. Qed.
Definition me_41 : mentry := mkME "movdq2q"%string [aMm; aX] (f_rr i_movdq2q)
  [mkL PF2 1 0xD6 true None [r_ KM Sany; rm_ KX false Sany] Os0 I_none].
Lemma m_41 : mimplements me_41. Proof. sset (@None bool) [SReg; SRm]. Qed.
Definition me_42 : mentry := mkME "movq2dq"%string [aX; aMm] (f_rr i_movq2dq)
  [mkL PF3 1 0xD6 true None [r_ KX Sany; rm_ KM false Sany] Os0 I_none].
Lemma m_42 : mimplements me_42. Proof. sset (@None bool) [SReg; SRm]. Qed.
Definition me_43 : mentry := mkME "movhlps"%string [aX; aX] (f_rr i_movhlps)
  [mkL NP 1 0x12 true None [r_ KX Sany; rm_ KX false Sany] Os0 I_none].
Lemma m_43 : mimplements me_43. Proof. sset (@None bool) [SReg; SRm]. Qed.
Definition me_44 : mentry := mkME "movlhps"%string [aX; aX] (f_rr i_movlhps)
  [mkL NP 1 0x16 true None [r_ KX Sany; rm_ KX false Sany] Os0 I_none].
Lemma m_44 : mimplements me_44. Proof. sset (@None bool) [SReg; SRm]. Qed.
Definition me_45 : mentry := mkME "movmskps"%string [aR [32; 64]; aX] (f_rr i_movmskps)
  [mkL NP 1 0x50 true None [r_ KG Sany; rm_ KX false Sany] OsN I_none].
Lemma m_45 : mimplements me_45. Proof. sset (@None bool) [SReg; SRm]. Qed.
Definition me_46 : mentry := mkME "lddqu"%string [aX; aM [0; 8; 32; 64; 128; 256; 512]] (f_ra i_lddqu)
  [mkL PF2 1 0xF0 true None [r_ KX Sany; m_ Sany] Os0 I_none].
Lemma m_46 : mimplements me_46. Proof. sset (@None bool) [SReg; SRm]. Qed.
Definition me_47 : mentry := mkME "movntdqa"%string [aX; aM [0; 8; 16; 32; 64; 128; 256; 512]] (f_ra i_movntdqa)
  [mkL P66 2 0x2A true None [r_ KX Sany; m_ Sany] Os0 I_none].
Lemma m_47 : mimplements me_47. Proof. sset (@None bool) [SReg; SRm]. Qed.
Definition me_48 : mentry := mkME "movaps_ax"%string [aM [0; 8; 32; 64; 128; 256; 512]; aX] (f_ar i_movaps_ax)
  [mkL NP 1 0x29 true None [m_ Sany; r_ KX Sany] Os0 I_none].
Lemma m_48 : mimplements me_48. Proof. sset (@None bool) [SRm; SReg]. Qed.
Definition me_49 : mentry := mkME "movapd_ax"%string [aM [0; 8; 16; 32; 64; 128; 256; 512]; aX] (f_ar i_movapd_ax)
  [mkL P66 1 0x29 true None [m_ Sany; r_ KX Sany] Os0 I_none].
Lemma m_49 : mimplements me_49. Proof. sset (@None bool) [SRm; SReg]. Qed.
Definition me_50 : mentry := mkME "movups_ax"%string [aM [0; 8; 32; 64; 128; 256; 512]; aX] (f_ar i_movups_ax)
  [mkL NP 1 0x11 true None [m_ Sany; r_ KX Sany] Os0 I_none].
Lemma m_50 : mimplements me_50. Proof. sset (@None bool) [SRm; SReg]. Qed.
Definition me_51 : mentry := mkME "movupd_ax"%string [aM [0; 8; 16; 32; 64; 128; 256; 512]; aX] (f_ar i_movupd_ax)
  [mkL P66 1 0x11 true None [m_ Sany; r_ KX Sany] Os0 I_none].
Lemma m_51 : mimplements me_51. Proof. sset (@None bool) [SRm; SReg]. Qed.
Definition me_52 : mentry := mkME "movdqa_ax"%string [aM [0; 8; 16; 32; 64; 128; 256; 512]; aX] (f_ar i_movdqa_ax)
  [mkL P66 1 0x7F true None [m_ Sany; r_ KX Sany] Os0 I_none].
Lemma m_52 : mimplements me_52. Proof. sset (@None bool) [SRm; SReg]. Qed.
Definition me_53 : mentry := mkME "movdqu_ax"%string [aM [0; 8; 32; 64; 128; 256; 512]; aX] (f_ar i_movdqu_ax)
  [mkL PF3 1 0x7F true None [m_ Sany; r_ KX Sany] Os0 I_none].
Lemma m_53 : mimplements me_53. Proof. sset (@None bool) [SRm; SReg]. Qed.
Definition me_54 : mentry := mkME "movss_ax"%string [aM [0; 8; 32; 64; 128; 256; 512]; aX] (f_ar i_movss_ax)
  [mkL PF3 1 0x11 true None [m_ Sany; r_ KX Sany] Os0 I_none].
Lemma m_54 : mimplements me_54. Proof. sset (@None bool) [SRm; SReg]. Qed.
Definition me_55 : mentry := mkME "movsd_ax"%string [aM [0; 8; 32; 64; 128; 256; 512]; aX] (f_ar i_movsd_ax)
  [mkL PF2 1 0x11 true None [m_ Sany; r_ KX Sany] Os0 I_none].
Lemma m_55 : mimplements me_55. Proof. sset (@None bool) [SRm; SReg]. Qed.
Definition me_56 : mentry := mkME "movntdq"%string [aM [0; 8; 16; 32; 64; 128; 256; 512]; aX] (f_ar i_movntdq)
  [mkL P66 1 0xE7 true None [m_ Sany; r_ KX Sany] Os0 I_none].
Lemma m_56 : mimplements me_56. Proof. st16 i_movntdq. Qed.
Definition me_57 : mentry := mkME "movntpd"%string [aM [0; 8; 16; 32; 64; 128; 256; 512]; aX] (f_ar i_movntpd)
  [mkL P66 1 0x2B true None [m_ Sany; r_ KX Sany] Os0 I_none].
Lemma m_57 : mimplements me_57. Proof. st16 i_movntpd. Qed.
Definition me_58 : mentry := mkME "movntps"%string [aM [0; 8; 32; 64; 128; 256; 512]; aX] (f_ar i_movntps)
  [mkL NP 1 0x2B true None [m_ Sany; r_ KX Sany] Os0 I_none].
Lemma m_58 : mimplements me_58. Proof. stx i_movntps. Qed.
Definition me_59 : mentry := mkME "movntq"%string [aM [0; 8; 16; 32; 64; 128; 256; 512]; aMm] (f_ar i_movntq)
  [mkL NP 1 0xE7 true None [m_ Sany; r_ KM Sany] Os0 I_none].
Lemma m_59 : mimplements me_59. Proof. chk2 (@None bool) [SRm; SReg] (on_mem i_movntq). Qed.
Definition me_60 : mentry := mkME "movd_mo"%string [aOr aMm aX; aOr (aR [32]) (aM [0; 32])] (f_ro i_movd_mo)
  [mkL NP 1 0x6E true None [r_ KM Sany; rm_ KG true (Sn 32)] Os0 I_none;
   mkL P66 1 0x6E true None [r_ KX Sany; rm_ KG true (Sn 32)] Os0 I_none].
Lemma m_60 : mimplements me_60. Proof. orp P66 0x66 i_movd_mo (@None bool) [SReg; SRm] (on_op i_movd_mo). Qed.
Definition me_61 : mentry := mkME "movd_om"%string [aOr (aR [32]) (aM [0; 32]); aOr aMm aX] (f_or i_movd_om)
  [mkL NP 1 0x7E true None [rm_ KG true (Sn 32); r_ KM Sany] Os0 I_none;
   mkL P66 1 0x7E true None [rm_ KG true (Sn 32); r_ KX Sany] Os0 I_none].
Lemma m_61 : mimplements me_61. Proof. orp P66 0x66 i_movd_om (@None bool) [SRm; SReg] (op_on i_movd_om). Qed.
Definition me_62 : mentry := mkME "movq_mq"%string [aOr aMm aX; aR [64]] (f_rr i_movq_mq)
  [mkL NP 1 0x6E true None [r_ KM Sany; rm_ KG false (Sn 64)] Os1 I_none;
   mkL P66 1 0x6E true None [r_ KX Sany; rm_ KG false (Sn 64)] Os1 I_none].
Lemma m_62 : mimplements me_62. Proof. orp P66 0x66 i_movq_mq (@None bool) [SReg; SRm] (on_reg i_movq_mq). Qed.
Definition me_63 : mentry := mkME "movq_qm"%string [aR [64]; aOr aMm aX] (f_rr i_movq_qm)
  [mkL NP 1 0x7E true None [rm_ KG false (Sn 64); r_ KM Sany] Os1 I_none;
   mkL P66 1 0x7E true None [rm_ KG false (Sn 64); r_ KX Sany] Os1 I_none].
Lemma m_63 : mimplements me_63. Proof. orp P66 0x66 i_movq_qm (@None bool) [SRm; SReg] (reg_on i_movq_qm). Qed.
Definition me_64 : mentry := mkME "movq_mo"%string [aOr aMm aX; aOr (aOr aMm aX) (aM [0; 64])] (f_ro i_movq_mo)
  [mkL NP 1 0x6F true None [r_ KM Sany; rm_ KM true (Sn 64)] Os0 I_none;
   mkL PF3 1 0x7E true None [r_ KX Sany; rm_ KX true Sany] Os0 I_none].
Lemma m_64 : mimplements me_64. Proof. movqt i_movq_mo. Qed.
Definition me_65 : mentry := mkME "movq_am"%string [aM [0; 64]; aOr aMm aX] (f_ar i_movq_am)
  [mkL NP 1 0x7F true None [m_ (Sn 64); r_ KM Sany] Os0 I_none;
   mkL P66 1 0xD6 true None [m_ (Sn 64); r_ KX Sany] Os0 I_none].
Lemma m_65 : mimplements me_65. Proof. orp P66 0x66 i_movq_am (@None bool) [SRm; SReg] (on_mem i_movq_am). Qed.
Definition me_66 : mentry := mkME "pmovmskb"%string [aR [32; 64]; aOr aMm aX] (f_rr i_pmovmskb)
  [mkL NP 1 0xD7 true None [r_ KG Sany; rm_ KM false Sany] OsN I_none;
   mkL P66 1 0xD7 true None [r_ KG Sany; rm_ KX false Sany] OsN I_none].
Lemma m_66 : mimplements me_66. Proof. orq P66 0x66 i_pmovmskb (@None bool) [SReg; SRm] (on_reg i_pmovmskb). Qed.
Definition me_67 : mentry := mkME "movmskpd"%string [aR [32; 64]; aX] (f_rr i_movmskpd)
  [mkL P66 1 0x50 true None [r_ KG Sany; rm_ KX false Sany] OsN I_none].
Lemma m_67 : mimplements me_67. Proof. prt P66 0x66 i_movmskpd (@None bool) [SReg; SRm] (on_reg i_movmskpd). Qed.
Definition me_68 : mentry := mkME "pinsrb"%string [aAny; anyM [0; 8; 16; 32; 64; 128; 256; 512]] (f_roi i_pinsrb)
  [mkL P66 3 0x20 true None [r_ KX Sany; rm_ KG true Sany] OsN I_8].
Lemma m_68 : mimplements me_68. Proof. anyt vf_xg (Some true) [SReg; SRm]. Qed.
Definition me_69 : mentry := mkME "pinsrd"%string [aX; aOr (aR [32]) (aM [0; 32])] (f_roi i_pinsrd)
  [mkL P66 3 0x22 true None [r_ KX Sany; rm_ KG true (Sn 32)] Os0 I_8].
Lemma m_69 : mimplements me_69. Proof. sset (Some true) [SReg; SRm]. Qed.
Definition me_70 : mentry := mkME "pinsrw"%string [aX; aOr (aR [32]) (aM [0; 8; 16; 32; 64; 128; 256; 512])] (f_roi i_pinsrw)
  [mkL P66 1 0xC4 true None [r_ KX Sany; rm_ KG true Sany] OsN I_8].
Lemma m_70 : mimplements me_70. Proof. pwt i_pinsrw. Qed.
Definition me_71 : mentry := mkME "pinsrw"%string [aMm; aOr (aR [32]) (aM [0; 8; 16; 32; 64; 128; 256; 512])] (f_roi i_pinsrw)
  [mkL NP 1 0xC4 true None [r_ KM Sany; rm_ KG true Sany] OsN I_8].
Lemma m_71 : mimplements me_71. Proof. pwt i_pinsrw. Qed.
Definition me_72 : mentry := mkME "pinsrq"%string [aX; aOr (aR [64]) (aM [0; 8; 16; 32; 64; 128; 256; 512])] (f_roi i_pinsrq)
  [mkL P66 3 0x22 true None [r_ KX Sany; rm_ KG true (Sn 64)] Os1 I_8].
Lemma m_72 : mimplements me_72. Proof. st64 i_pinsrq [SReg; SRm] (on_opi i_pinsrq). Qed.
Definition me_73 : mentry := mkME "pextrq"%string [aOr (aR [64]) (aM [0; 8; 16; 32; 64; 128; 256; 512]); aX] (f_ori i_pextrq)
  [mkL P66 3 0x16 true None [rm_ KG true (Sn 64); r_ KX Sany] Os1 I_8].
Lemma m_73 : mimplements me_73. Proof. st64 i_pextrq [SRm; SReg] (op_oni i_pextrq). Qed.
Definition me_74 : mentry := mkME "pextrb"%string [aOr (aR [32; 64]) (aM [0; 8; 16; 32; 64; 128; 256; 512]); aX] (f_ori i_pextrb)
  [mkL P66 3 0x14 true None [rm_ KG true Sany; r_ KX Sany] OsN I_8].
Lemma m_74 : mimplements me_74. Proof. ext i_pextrb. Qed.
Definition me_75 : mentry := mkME "extractps"%string [aOr (aR [32; 64]) (aM [0; 8; 16; 32; 64; 128; 256; 512]); aX] (f_ori i_extractps)
  [mkL P66 3 0x17 true None [rm_ KG true Sany; r_ KX Sany] OsN I_8].
Lemma m_75 : mimplements me_75. Proof. ext i_extractps. Qed.
Definition me_76 : mentry := mkME "pextrd"%string [aOr (aR [32]) (aM [0; 32]); aX] (f_ori i_pextrd)
  [mkL P66 3 0x16 true None [rm_ KG true (Sn 32); r_ KX Sany] Os0 I_8].
Lemma m_76 : mimplements me_76. Proof. ext i_pextrd. Qed.
Definition mix_table : list mentry :=
  [me_0; me_1; me_2; me_3; me_4; me_5; me_6; me_7; me_8; me_9; me_10; me_11; me_12; me_13; me_14; me_15; me_16; me_17; me_18; me_19; me_20; me_21; me_22; me_23; me_24; me_25; me_26; me_27; me_28; me_29; me_30; me_31; me_32; me_33; me_34; me_35; me_36; me_37; me_38; me_39; me_40; me_41; me_42; me_43; me_44; me_45; me_46; me_47; me_48; me_49; me_50; me_51; me_52; me_53; me_54; me_55; me_56; me_57; me_58; me_59; me_60; me_61; me_62; me_63; me_64; me_65; me_66; me_67; me_68; me_69; me_70; me_71; me_72; me_73; me_74; me_75; me_76].
Theorem mix_all : Forall mimplements mix_table.
Proof. unfold mix_table. apply Forall_cons; [exact m_0|]. apply Forall_cons; [exact m_1|]. apply Forall_cons; [exact m_2|]. apply Forall_cons; [exact m_3|]. apply Forall_cons; [exact m_4|]. apply Forall_cons; [exact m_5|]. apply Forall_cons; [exact m_6|]. apply Forall_cons; [exact m_7|]. apply Forall_cons; [exact m_8|]. apply Forall_cons; [exact m_9|]. apply Forall_cons; [exact m_10|]. apply Forall_cons; [exact m_11|]. apply Forall_cons; [exact m_12|]. apply Forall_cons; [exact m_13|]. apply Forall_cons; [exact m_14|]. apply Forall_cons; [exact m_15|]. apply Forall_cons; [exact m_16|]. apply Forall_cons; [exact m_17|]. apply Forall_cons; [exact m_18|]. apply Forall_cons; [exact m_19|]. apply Forall_cons; [exact m_20|]. apply Forall_cons; [exact m_21|]. apply Forall_cons; [exact m_22|]. apply Forall_cons; [exact m_23|]. apply Forall_cons; [exact m_24|]. apply Forall_cons; [exact m_25|]. apply Forall_cons; [exact m_26|]. apply Forall_cons; [exact m_27|]. apply Forall_cons; [exact m_28|]. apply Forall_cons; [exact m_29|]. apply Forall_cons; [exact m_30|]. apply Forall_cons; [exact m_31|]. apply Forall_cons; [exact m_32|]. apply Forall_cons; [exact m_33|]. apply Forall_cons; [exact m_34|]. apply Forall_cons; [exact m_35|]. apply Forall_cons; [exact m_36|]. apply Forall_cons; [exact m_37|]. apply Forall_cons; [exact m_38|]. apply Forall_cons; [exact m_39|]. apply Forall_cons; [exact m_40|]. apply Forall_cons; [exact m_41|]. apply Forall_cons; [exact m_42|]. apply Forall_cons; [exact m_43|]. apply Forall_cons; [exact m_44|]. apply Forall_cons; [exact m_45|]. apply Forall_cons; [exact m_46|]. apply Forall_cons; [exact m_47|]. apply Forall_cons; [exact m_48|]. apply Forall_cons; [exact m_49|]. apply Forall_cons; [exact m_50|]. apply Forall_cons; [exact m_51|]. apply Forall_cons; [exact m_52|]. apply Forall_cons; [exact m_53|]. apply Forall_cons; [exact m_54|]. apply Forall_cons; [exact m_55|]. apply Forall_cons; [exact m_56|]. apply Forall_cons; [exact m_57|]. apply Forall_cons; [exact m_58|]. apply Forall_cons; [exact m_59|]. apply Forall_cons; [exact m_60|]. apply Forall_cons; [exact m_61|]. apply Forall_cons; [exact m_62|]. apply Forall_cons; [exact m_63|]. apply Forall_cons; [exact m_64|]. apply Forall_cons; [exact m_65|]. apply Forall_cons; [exact m_66|]. apply Forall_cons; [exact m_67|]. apply Forall_cons; [exact m_68|]. apply Forall_cons; [exact m_69|]. apply Forall_cons; [exact m_70|]. apply Forall_cons; [exact m_71|]. apply Forall_cons; [exact m_72|]. apply Forall_cons; [exact m_73|]. apply Forall_cons; [exact m_74|]. apply Forall_cons; [exact m_75|]. apply Forall_cons; [exact m_76|]. apply Forall_nil. Qed.
