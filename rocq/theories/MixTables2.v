(* Generated by tools/mixtab.py: remaining legacy-encoded instructions, the forms of the Intel SDM vol. 2. *)
From Coq Require Import ZArith List Bool String Lia.
From Verif Require Import Base Types Emit Encode Mnemonic SpecX86 SpecAddr SpecIsa SpecInsn SpecLeg SpecMix Wf EmitFacts BitFacts MemFacts LegacyFacts VexFacts EncThms LegFacts LegShapes LegGpr LegGpr2 LegGpr3 SseFacts SseShapes MixTac MixShapes.
Import ListNotations.
Open Scope Z_scope.

Definition ne_0 : mentry := mkME "movhps"%string [aX; aM [0; 8; 32; 64; 128; 256; 512]] (f_oo i_movhps)
  [mkL NP 1 0x16 true None [r_ KX Sany; m_ Sany] Os0 I_none].
Lemma n_0 : mimplements ne_0. Proof. mvx i_movhps [SReg; SRm] (fun r op (_ : Z) => i_movhps (OReg r) op). Qed.
Definition ne_1 : mentry := mkME "movhps"%string [aM [0; 8; 32; 64; 128; 256; 512]; aX] (f_oo i_movhps)
  [mkL NP 1 0x17 true None [m_ Sany; r_ KX Sany] Os0 I_none].
Lemma n_1 : mimplements ne_1. Proof. mvx i_movhps [SRm; SReg] (fun r op (_ : Z) => i_movhps op (OReg r)). Qed.
Definition ne_2 : mentry := mkME "movhpd"%string [aX; aM [0; 8; 16; 32; 64; 128; 256; 512]] (f_oo i_movhpd)
  [mkL P66 1 0x16 true None [r_ KX Sany; m_ Sany] Os0 I_none].
Lemma n_2 : mimplements ne_2. Proof. mvx i_movhpd [SReg; SRm] (fun r op (_ : Z) => i_movhpd (OReg r) op). Qed.
Definition ne_3 : mentry := mkME "movhpd"%string [aM [0; 8; 16; 32; 64; 128; 256; 512]; aX] (f_oo i_movhpd)
  [mkL P66 1 0x17 true None [m_ Sany; r_ KX Sany] Os0 I_none].
Lemma n_3 : mimplements ne_3. Proof. mvx i_movhpd [SRm; SReg] (fun r op (_ : Z) => i_movhpd op (OReg r)). Qed.
Definition ne_4 : mentry := mkME "movlps"%string [aX; aM [0; 8; 32; 64; 128; 256; 512]] (f_oo i_movlps)
  [mkL NP 1 0x12 true None [r_ KX Sany; m_ Sany] Os0 I_none].
Lemma n_4 : mimplements ne_4. Proof. mvx i_movlps [SReg; SRm] (fun r op (_ : Z) => i_movlps (OReg r) op). Qed.
Definition ne_5 : mentry := mkME "movlps"%string [aM [0; 8; 32; 64; 128; 256; 512]; aX] (f_oo i_movlps)
  [mkL NP 1 0x13 true None [m_ Sany; r_ KX Sany] Os0 I_none].
Lemma n_5 : mimplements ne_5. Proof. mvx i_movlps [SRm; SReg] (fun r op (_ : Z) => i_movlps op (OReg r)). Qed.
Definition ne_6 : mentry := mkME "movlpd"%string [aX; aM [0; 8; 16; 32; 64; 128; 256; 512]] (f_oo i_movlpd)
  [mkL P66 1 0x12 true None [r_ KX Sany; m_ Sany] Os0 I_none].
Lemma n_6 : mimplements ne_6. Proof. mvx i_movlpd [SReg; SRm] (fun r op (_ : Z) => i_movlpd (OReg r) op). Qed.
Definition ne_7 : mentry := mkME "movlpd"%string [aM [0; 8; 16; 32; 64; 128; 256; 512]; aX] (f_oo i_movlpd)
  [mkL P66 1 0x13 true None [m_ Sany; r_ KX Sany] Os0 I_none].
Lemma n_7 : mimplements ne_7. Proof. mvx i_movlpd [SRm; SReg] (fun r op (_ : Z) => i_movlpd op (OReg r)). Qed.
Definition ne_8 : mentry := mkME "psllw"%string [aOr aX aMm] (f_ri i_psllw_mi)
  [mkL P66 1 0x71 true (Some 6) [rm_ KX false Sany] Os0 I_8;
   mkL NP 1 0x71 true (Some 6) [rm_ KM false Sany] Os0 I_8].
Lemma n_8 : mimplements ne_8. Proof. mmit i_psllw_mi. Qed.
Definition ne_9 : mentry := mkME "pslld"%string [aOr aX aMm] (f_ri i_pslld_mi)
  [mkL P66 1 0x72 true (Some 6) [rm_ KX false Sany] Os0 I_8;
   mkL NP 1 0x72 true (Some 6) [rm_ KM false Sany] Os0 I_8].
Lemma n_9 : mimplements ne_9. Proof. mmit i_pslld_mi. Qed.
Definition ne_10 : mentry := mkME "psllq"%string [aOr aX aMm] (f_ri i_psllq_mi)
  [mkL P66 1 0x73 true (Some 6) [rm_ KX false Sany] Os0 I_8;
   mkL NP 1 0x73 true (Some 6) [rm_ KM false Sany] Os0 I_8].
Lemma n_10 : mimplements ne_10. Proof. mmit i_psllq_mi. Qed.
Definition ne_11 : mentry := mkME "psraw"%string [aOr aX aMm] (f_ri i_psraw_mi)
  [mkL P66 1 0x71 true (Some 4) [rm_ KX false Sany] Os0 I_8;
   mkL NP 1 0x71 true (Some 4) [rm_ KM false Sany] Os0 I_8].
Lemma n_11 : mimplements ne_11. Proof. mmit i_psraw_mi. Qed.
Definition ne_12 : mentry := mkME "psrad"%string [aOr aX aMm] (f_ri i_psrad_mi)
  [mkL P66 1 0x72 true (Some 4) [rm_ KX false Sany] Os0 I_8;
   mkL NP 1 0x72 true (Some 4) [rm_ KM false Sany] Os0 I_8].
Lemma n_12 : mimplements ne_12. Proof. mmit i_psrad_mi. Qed.
Definition ne_13 : mentry := mkME "psrlw"%string [aOr aX aMm] (f_ri i_psrlw_mi)
  [mkL P66 1 0x71 true (Some 2) [rm_ KX false Sany] Os0 I_8;
   mkL NP 1 0x71 true (Some 2) [rm_ KM false Sany] Os0 I_8].
Lemma n_13 : mimplements ne_13. Proof. mmit i_psrlw_mi. Qed.
Definition ne_14 : mentry := mkME "psrld"%string [aOr aX aMm] (f_ri i_psrld_mi)
  [mkL P66 1 0x72 true (Some 2) [rm_ KX false Sany] Os0 I_8;
   mkL NP 1 0x72 true (Some 2) [rm_ KM false Sany] Os0 I_8].
Lemma n_14 : mimplements ne_14. Proof. mmit i_psrld_mi. Qed.
Definition ne_15 : mentry := mkME "psrlq"%string [aOr aX aMm] (f_ri i_psrlq_mi)
  [mkL P66 1 0x73 true (Some 2) [rm_ KX false Sany] Os0 I_8;
   mkL NP 1 0x73 true (Some 2) [rm_ KM false Sany] Os0 I_8].
Lemma n_15 : mimplements ne_15. Proof. mmit i_psrlq_mi. Qed.
Definition ne_16 : mentry := mkME "pslldq"%string [aX] (f_ri i_pslldq)
  [mkL P66 1 0x73 true (Some 7) [rm_ KX false Sany] Os0 I_8].
Lemma n_16 : mimplements ne_16. Proof. start; mmi i_pslldq aX. Qed.
Definition ne_17 : mentry := mkME "psrldq"%string [aX] (f_ri i_psrldq)
  [mkL P66 1 0x73 true (Some 3) [rm_ KX false Sany] Os0 I_8].
Lemma n_17 : mimplements ne_17. Proof. start; mmi i_psrldq aX. Qed.
Definition ne_18 : mentry := mkME "rdrand"%string [aR [16; 32; 64]] (f_r i_rdrand)
  [mkL NP 1 0xC7 true (Some 6) [rm_ KG false Sv] OsV I_none].
Lemma n_18 : mimplements ne_18. Proof. rdt i_rdrand. Qed.
Definition ne_19 : mentry := mkME "rdseed"%string [aR [16; 32; 64]] (f_r i_rdseed)
  [mkL NP 1 0xC7 true (Some 7) [rm_ KG false Sv] OsV I_none].
Lemma n_19 : mimplements ne_19. Proof. rdt i_rdseed. Qed.
Definition ne_20 : mentry := mkME "rdfsbase"%string [aR [32; 64]] (f_r i_rdfsbase)
  [mkL PF3 1 0xAE true (Some 0) [rm_ KG false Sv] OsY I_none].
Lemma n_20 : mimplements ne_20. Proof. fsb i_rdfsbase. Qed.
Definition ne_21 : mentry := mkME "rdgsbase"%string [aR [32; 64]] (f_r i_rdgsbase)
  [mkL PF3 1 0xAE true (Some 1) [rm_ KG false Sv] OsY I_none].
Lemma n_21 : mimplements ne_21. Proof. fsb i_rdgsbase. Qed.
Definition ne_22 : mentry := mkME "wrfsbase"%string [aR [32; 64]] (f_r i_wrfsbase)
  [mkL PF3 1 0xAE true (Some 2) [rm_ KG false Sv] OsY I_none].
Lemma n_22 : mimplements ne_22. Proof. fsb i_wrfsbase. Qed.
Definition ne_23 : mentry := mkME "wrgsbase"%string [aR [32; 64]] (f_r i_wrgsbase)
  [mkL PF3 1 0xAE true (Some 3) [rm_ KG false Sv] OsY I_none].
Lemma n_23 : mimplements ne_23. Proof. fsb i_wrgsbase. Qed.
Definition ne_24 : mentry := mkME "senduipi"%string [aR [64]] (f_r i_senduipi)
  [mkL PF3 1 0xC7 true (Some 6) [rm_ KG false (Sn 64)] OsN I_none].
Lemma n_24 : mimplements ne_24. Proof. start; eapply e_uipi; [reflexivity|lia|reflexivity|vm_compute; reflexivity]. Qed.
Definition ne_25 : mentry := mkME "fadd"%string [aM [0; 8; 16; 32; 64; 128; 256; 512]] (f_a i_fadd_a)
  [mkL NP 0 0xD8 true (Some 0) [m_ (Sn 32)] Os0 I_none;
   mkL NP 0 0xDC true (Some 0) [m_ (Sn 64)] Os0 I_none].
Lemma n_25 : mimplements ne_25. Proof. fput. Qed.
Definition ne_26 : mentry := mkME "fcom"%string [aM [0; 8; 16; 32; 64; 128; 256; 512]] (f_a i_fcom_a)
  [mkL NP 0 0xD8 true (Some 2) [m_ (Sn 32)] Os0 I_none;
   mkL NP 0 0xDC true (Some 2) [m_ (Sn 64)] Os0 I_none].
Lemma n_26 : mimplements ne_26. Proof. fput. Qed.
Definition ne_27 : mentry := mkME "fcomp"%string [aM [0; 8; 16; 32; 64; 128; 256; 512]] (f_a i_fcomp_a)
  [mkL NP 0 0xD8 true (Some 3) [m_ (Sn 32)] Os0 I_none;
   mkL NP 0 0xDC true (Some 3) [m_ (Sn 64)] Os0 I_none].
Lemma n_27 : mimplements ne_27. Proof. fput. Qed.
Definition ne_28 : mentry := mkME "fdiv"%string [aM [0; 8; 16; 32; 64; 128; 256; 512]] (f_a i_fdiv_a)
  [mkL NP 0 0xD8 true (Some 6) [m_ (Sn 32)] Os0 I_none;
   mkL NP 0 0xDC true (Some 6) [m_ (Sn 64)] Os0 I_none].
Lemma n_28 : mimplements ne_28. Proof. fput. Qed.
Definition ne_29 : mentry := mkME "fdivr"%string [aM [0; 8; 16; 32; 64; 128; 256; 512]] (f_a i_fdivr_a)
  [mkL NP 0 0xD8 true (Some 7) [m_ (Sn 32)] Os0 I_none;
   mkL NP 0 0xDC true (Some 7) [m_ (Sn 64)] Os0 I_none].
Lemma n_29 : mimplements ne_29. Proof. fput. Qed.
Definition ne_30 : mentry := mkME "fmul"%string [aM [0; 8; 16; 32; 64; 128; 256; 512]] (f_a i_fmul_a)
  [mkL NP 0 0xD8 true (Some 1) [m_ (Sn 32)] Os0 I_none;
   mkL NP 0 0xDC true (Some 1) [m_ (Sn 64)] Os0 I_none].
Lemma n_30 : mimplements ne_30. Proof. fput. Qed.
Definition ne_31 : mentry := mkME "fsub"%string [aM [0; 8; 16; 32; 64; 128; 256; 512]] (f_a i_fsub_a)
  [mkL NP 0 0xD8 true (Some 4) [m_ (Sn 32)] Os0 I_none;
   mkL NP 0 0xDC true (Some 4) [m_ (Sn 64)] Os0 I_none].
Lemma n_31 : mimplements ne_31. Proof. fput. Qed.
Definition ne_32 : mentry := mkME "fsubr"%string [aM [0; 8; 16; 32; 64; 128; 256; 512]] (f_a i_fsubr_a)
  [mkL NP 0 0xD8 true (Some 5) [m_ (Sn 32)] Os0 I_none;
   mkL NP 0 0xDC true (Some 5) [m_ (Sn 64)] Os0 I_none].
Lemma n_32 : mimplements ne_32. Proof. fput. Qed.
Definition ne_33 : mentry := mkME "fiadd"%string [aM [0; 8; 16; 32; 64; 128; 256; 512]] (f_a i_fiadd)
  [mkL NP 0 0xDE true (Some 0) [m_ (Sn 16)] Os0 I_none;
   mkL NP 0 0xDA true (Some 0) [m_ (Sn 32)] Os0 I_none].
Lemma n_33 : mimplements ne_33. Proof. fput. Qed.
Definition ne_34 : mentry := mkME "ficom"%string [aM [0; 8; 16; 32; 64; 128; 256; 512]] (f_a i_ficom)
  [mkL NP 0 0xDE true (Some 2) [m_ (Sn 16)] Os0 I_none;
   mkL NP 0 0xDA true (Some 2) [m_ (Sn 32)] Os0 I_none].
Lemma n_34 : mimplements ne_34. Proof. fput. Qed.
Definition ne_35 : mentry := mkME "ficomp"%string [aM [0; 8; 16; 32; 64; 128; 256; 512]] (f_a i_ficomp)
  [mkL NP 0 0xDE true (Some 3) [m_ (Sn 16)] Os0 I_none;
   mkL NP 0 0xDA true (Some 3) [m_ (Sn 32)] Os0 I_none].
Lemma n_35 : mimplements ne_35. Proof. fput. Qed.
Definition ne_36 : mentry := mkME "fidiv"%string [aM [0; 8; 16; 32; 64; 128; 256; 512]] (f_a i_fidiv)
  [mkL NP 0 0xDE true (Some 6) [m_ (Sn 16)] Os0 I_none;
   mkL NP 0 0xDA true (Some 6) [m_ (Sn 32)] Os0 I_none].
Lemma n_36 : mimplements ne_36. Proof. fput. Qed.
Definition ne_37 : mentry := mkME "fidivr"%string [aM [0; 8; 16; 32; 64; 128; 256; 512]] (f_a i_fidivr)
  [mkL NP 0 0xDE true (Some 7) [m_ (Sn 16)] Os0 I_none;
   mkL NP 0 0xDA true (Some 7) [m_ (Sn 32)] Os0 I_none].
Lemma n_37 : mimplements ne_37. Proof. fput. Qed.
Definition ne_38 : mentry := mkME "fimul"%string [aM [0; 8; 16; 32; 64; 128; 256; 512]] (f_a i_fimul)
  [mkL NP 0 0xDE true (Some 1) [m_ (Sn 16)] Os0 I_none;
   mkL NP 0 0xDA true (Some 1) [m_ (Sn 32)] Os0 I_none].
Lemma n_38 : mimplements ne_38. Proof. fput. Qed.
Definition ne_39 : mentry := mkME "fisub"%string [aM [0; 8; 16; 32; 64; 128; 256; 512]] (f_a i_fisub)
  [mkL NP 0 0xDE true (Some 4) [m_ (Sn 16)] Os0 I_none;
   mkL NP 0 0xDA true (Some 4) [m_ (Sn 32)] Os0 I_none].
Lemma n_39 : mimplements ne_39. Proof. fput. Qed.
Definition ne_40 : mentry := mkME "fisubr"%string [aM [0; 8; 16; 32; 64; 128; 256; 512]] (f_a i_fisubr)
  [mkL NP 0 0xDE true (Some 5) [m_ (Sn 16)] Os0 I_none;
   mkL NP 0 0xDA true (Some 5) [m_ (Sn 32)] Os0 I_none].
Lemma n_40 : mimplements ne_40. Proof. fput. Qed.
Definition ne_41 : mentry := mkME "fild"%string [aM [0; 8; 16; 32; 64; 128; 256; 512]] (f_a i_fild)
  [mkL NP 0 0xDF true (Some 0) [m_ (Sn 16)] Os0 I_none;
   mkL NP 0 0xDB true (Some 0) [m_ (Sn 32)] Os0 I_none;
   mkL NP 0 0xDF true (Some 5) [m_ (Sn 64)] Os0 I_none].
Lemma n_41 : mimplements ne_41. Proof. fput. Qed.
Definition ne_42 : mentry := mkME "fist"%string [aM [0; 8; 16; 32; 64; 128; 256; 512]] (f_a i_fist)
  [mkL NP 0 0xDF true (Some 2) [m_ (Sn 16)] Os0 I_none;
   mkL NP 0 0xDB true (Some 2) [m_ (Sn 32)] Os0 I_none].
Lemma n_42 : mimplements ne_42. Proof. fput. Qed.
Definition ne_43 : mentry := mkME "fistp"%string [aM [0; 8; 16; 32; 64; 128; 256; 512]] (f_a i_fistp)
  [mkL NP 0 0xDF true (Some 3) [m_ (Sn 16)] Os0 I_none;
   mkL NP 0 0xDB true (Some 3) [m_ (Sn 32)] Os0 I_none;
   mkL NP 0 0xDF true (Some 7) [m_ (Sn 64)] Os0 I_none].
Lemma n_43 : mimplements ne_43. Proof. fput. Qed.
Definition ne_44 : mentry := mkME "fisttp"%string [aM [0; 8; 16; 32; 64; 128; 256; 512]] (f_a i_fisttp)
  [mkL NP 0 0xDF true (Some 1) [m_ (Sn 16)] Os0 I_none;
   mkL NP 0 0xDB true (Some 1) [m_ (Sn 32)] Os0 I_none;
   mkL NP 0 0xDD true (Some 1) [m_ (Sn 64)] Os0 I_none].
Lemma n_44 : mimplements ne_44. Proof. fput. Qed.
Definition ne_45 : mentry := mkME "fld"%string [aM [0; 8; 16; 32; 64; 128; 256; 512]] (f_a i_fld_a)
  [mkL NP 0 0xD9 true (Some 0) [m_ (Sn 32)] Os0 I_none;
   mkL NP 0 0xDD true (Some 0) [m_ (Sn 64)] Os0 I_none].
Lemma n_45 : mimplements ne_45. Proof. fput. Qed.
Definition ne_46 : mentry := mkME "fst"%string [aM [0; 8; 16; 32; 64; 128; 256; 512]] (f_a i_fst_a)
  [mkL NP 0 0xD9 true (Some 2) [m_ (Sn 32)] Os0 I_none;
   mkL NP 0 0xDD true (Some 2) [m_ (Sn 64)] Os0 I_none].
Lemma n_46 : mimplements ne_46. Proof. fput. Qed.
Definition ne_47 : mentry := mkME "fstp"%string [aM [0; 8; 16; 32; 64; 128; 256; 512]] (f_a i_fstp_a)
  [mkL NP 0 0xD9 true (Some 3) [m_ (Sn 32)] Os0 I_none;
   mkL NP 0 0xDD true (Some 3) [m_ (Sn 64)] Os0 I_none].
Lemma n_47 : mimplements ne_47. Proof. fput. Qed.
Definition ne_48 : mentry := mkME "bndcl"%string [aB; aOr (aR [8; 16; 32; 64]) (aM [0; 8; 32; 64; 128; 256; 512])] (f_ro i_bndcl)
  [mkL PF3 1 0x1A true None [r_ KB Sany; rm_ KG true Sany] OsN I_none].
Lemma n_48 : mimplements ne_48. Proof. bndct. Qed.
Definition ne_49 : mentry := mkME "bndcu"%string [aB; aOr (aR [8; 16; 32; 64]) (aM [0; 8; 32; 64; 128; 256; 512])] (f_ro i_bndcu)
  [mkL PF2 1 0x1A true None [r_ KB Sany; rm_ KG true Sany] OsN I_none].
Lemma n_49 : mimplements ne_49. Proof. bndct. Qed.
Definition ne_50 : mentry := mkME "bndcn"%string [aB; aOr (aR [8; 16; 32; 64]) (aM [0; 8; 32; 64; 128; 256; 512])] (f_ro i_bndcn)
  [mkL PF2 1 0x1B true None [r_ KB Sany; rm_ KG true Sany] OsN I_none].
Lemma n_50 : mimplements ne_50. Proof. bndct. Qed.
Definition ne_51 : mentry := mkME "bndmk"%string [aB; aM [0; 8; 32; 64; 128; 256; 512]] (f_ra i_bndmk)
  [mkL PF3 1 0x1B true None [r_ KB Sany; m_ Sany] OsN I_none].
Lemma n_51 : mimplements ne_51. Proof. bnt i_bndmk [SReg; SRm] (on_mem (fun a r => i_bndmk r a)). Qed.
Definition ne_52 : mentry := mkME "bndmov"%string [aM [0; 8; 16; 32; 64; 128; 256; 512]; aB] (f_ar i_bndmov_an)
  [mkL P66 1 0x1B true None [m_ Sany; r_ KB Sany] OsN I_none].
Lemma n_52 : mimplements ne_52. Proof. bnt i_bndmov_an [SRm; SReg] (on_mem i_bndmov_an). Qed.
Definition ne_53 : mentry := mkME "bndmov"%string [aB; aOr aB (aM [0; 8; 16; 32; 64; 128; 256; 512])] (f_ro i_bndmov_no)
  [mkL P66 1 0x1A true None [r_ KB Sany; rm_ KB true Sany] OsN I_none].
Lemma n_53 : mimplements ne_53. Proof. bnt i_bndmov_no [SReg; SRm] (on_op i_bndmov_no). Qed.
Definition ne_54 : mentry := mkME "bndldx"%string [aB; aM [0; 8; 32; 64; 128; 256; 512]] (f_ra i_bndldx)
  [mkL NP 1 0x1A true None [r_ KB Sany; m_ Sany] OsN I_none].
Lemma n_54 : mimplements ne_54. Proof. start; refine (e_mib _ _ [SReg; SRm] _ _ _ _ (on_mem (fun a r => i_bndldx r a)) _ _ _); [fnis2|reflexivity|vm_compute; reflexivity]. Qed.
Definition ne_55 : mentry := mkME "bndstx"%string [aM [0; 8; 32; 64; 128; 256; 512]; aB] (f_ar i_bndstx)
  [mkL NP 1 0x1B true None [m_ Sany; r_ KB Sany] OsN I_none].
Lemma n_55 : mimplements ne_55. Proof. start; refine (e_mib _ _ [SRm; SReg] _ _ _ _ (on_mem i_bndstx) _ _ _); [fnis2|reflexivity|vm_compute; reflexivity]. Qed.
Definition ne_56 : mentry := mkME "lss"%string [aLow (aR [16; 32; 64]); aLow (aM [0])] (f_ra i_lss)
  [mkL NP 1 0xB2 true None [r_ KG Sv; m_ Sany] OsV I_none].
Lemma n_56 : mimplements ne_56. Proof. lfst i_lss. Qed.
Definition ne_57 : mentry := mkME "lfs"%string [aLow (aR [16; 32; 64]); aLow (aM [0])] (f_ra i_lfs)
  [mkL NP 1 0xB4 true None [r_ KG Sv; m_ Sany] OsV I_none].
Lemma n_57 : mimplements ne_57. Proof. lfst i_lfs. Qed.
Definition ne_58 : mentry := mkME "lgs"%string [aLow (aR [16; 32; 64]); aLow (aM [0])] (f_ra i_lgs)
  [mkL NP 1 0xB5 true None [r_ KG Sv; m_ Sany] OsV I_none].
Lemma n_58 : mimplements ne_58. Proof. lfst i_lgs. Qed.
Definition ne_59 : mentry := mkME "sha1nexte"%string [aX; aLow (aOr aX (aM [0; 8; 32; 64; 128; 256; 512]))] (f_ro i_sha1nexte)
  [mkL NP 2 0xC8 true None [r_ KX Sany; rm_ KX true Sany] Os0 I_none].
Lemma n_59 : mimplements ne_59. Proof. apxt i_sha1nexte (@None bool) (on_op i_sha1nexte). Qed.
Definition ne_60 : mentry := mkME "sha1msg1"%string [aX; aLow (aOr aX (aM [0; 8; 32; 64; 128; 256; 512]))] (f_ro i_sha1msg1)
  [mkL NP 2 0xC9 true None [r_ KX Sany; rm_ KX true Sany] Os0 I_none].
Lemma n_60 : mimplements ne_60. Proof. apxt i_sha1msg1 (@None bool) (on_op i_sha1msg1). Qed.
Definition ne_61 : mentry := mkME "sha1msg2"%string [aX; aLow (aOr aX (aM [0; 8; 32; 64; 128; 256; 512]))] (f_ro i_sha1msg2)
  [mkL NP 2 0xCA true None [r_ KX Sany; rm_ KX true Sany] Os0 I_none].
Lemma n_61 : mimplements ne_61. Proof. apxt i_sha1msg2 (@None bool) (on_op i_sha1msg2). Qed.
Definition ne_62 : mentry := mkME "sha256rnds2"%string [aX; aLow (aOr aX (aM [0; 8; 32; 64; 128; 256; 512]))] (f_ro i_sha256rnds2)
  [mkL NP 2 0xCB true None [r_ KX Sany; rm_ KX true Sany] Os0 I_none].
Lemma n_62 : mimplements ne_62. Proof. apxt i_sha256rnds2 (@None bool) (on_op i_sha256rnds2). Qed.
Definition ne_63 : mentry := mkME "sha256msg1"%string [aX; aLow (aOr aX (aM [0; 8; 32; 64; 128; 256; 512]))] (f_ro i_sha256msg1)
  [mkL NP 2 0xCC true None [r_ KX Sany; rm_ KX true Sany] Os0 I_none].
Lemma n_63 : mimplements ne_63. Proof. apxt i_sha256msg1 (@None bool) (on_op i_sha256msg1). Qed.
Definition ne_64 : mentry := mkME "sha256msg2"%string [aX; aLow (aOr aX (aM [0; 8; 32; 64; 128; 256; 512]))] (f_ro i_sha256msg2)
  [mkL NP 2 0xCD true None [r_ KX Sany; rm_ KX true Sany] Os0 I_none].
Lemma n_64 : mimplements ne_64. Proof. apxt i_sha256msg2 (@None bool) (on_op i_sha256msg2). Qed.
Definition ne_65 : mentry := mkME "sha1rnds4"%string [aX; aLow (aOr aX (aM [0; 8; 32; 64; 128; 256; 512]))] (f_roi i_sha1rnds4)
  [mkL NP 3 0xCC true None [r_ KX Sany; rm_ KX true Sany] Os0 I_8].
Lemma n_65 : mimplements ne_65. Proof. apxt i_sha1rnds4 (Some true) (on_opi i_sha1rnds4). Qed.
Definition ne_66 : mentry := mkME "aesenc128kl"%string [aX; aLow (aM [0; 8; 32; 64; 128; 256; 512])] (f_ra i_aesenc128kl)
  [mkL PF3 2 0xDC true None [r_ KX Sany; m_ Sany] Os0 I_none].
Lemma n_66 : mimplements ne_66. Proof. apxt i_aesenc128kl (@None bool) (on_mem (fun a r => i_aesenc128kl r a)). Qed.
Definition ne_67 : mentry := mkME "aesdec128kl"%string [aX; aLow (aM [0; 8; 32; 64; 128; 256; 512])] (f_ra i_aesdec128kl)
  [mkL PF3 2 0xDD true None [r_ KX Sany; m_ Sany] Os0 I_none].
Lemma n_67 : mimplements ne_67. Proof. apxt i_aesdec128kl (@None bool) (on_mem (fun a r => i_aesdec128kl r a)). Qed.
Definition ne_68 : mentry := mkME "aesenc256kl"%string [aX; aLow (aM [0; 8; 32; 64; 128; 256; 512])] (f_ra i_aesenc256kl)
  [mkL PF3 2 0xDE true None [r_ KX Sany; m_ Sany] Os0 I_none].
Lemma n_68 : mimplements ne_68. Proof. apxt i_aesenc256kl (@None bool) (on_mem (fun a r => i_aesenc256kl r a)). Qed.
Definition ne_69 : mentry := mkME "aesdec256kl"%string [aX; aLow (aM [0; 8; 32; 64; 128; 256; 512])] (f_ra i_aesdec256kl)
  [mkL PF3 2 0xDF true None [r_ KX Sany; m_ Sany] Os0 I_none].
Lemma n_69 : mimplements ne_69. Proof. apxt i_aesdec256kl (@None bool) (on_mem (fun a r => i_aesdec256kl r a)). Qed.
Definition ne_70 : mentry := mkME "aesencwide128kl"%string [aLow (aM [0; 8; 32; 64; 128; 256; 512])] (f_a i_aesencwide128kl)
  [mkL PF3 2 0xD8 true (Some 0) [m_ Sany] Os0 I_none].
Lemma n_70 : mimplements ne_70. Proof. start; eapply e_wide; [reflexivity|vm_compute; reflexivity]. Qed.
Definition ne_71 : mentry := mkME "aesdecwide128kl"%string [aLow (aM [0; 8; 32; 64; 128; 256; 512])] (f_a i_aesdecwide128kl)
  [mkL PF3 2 0xD8 true (Some 1) [m_ Sany] Os0 I_none].
Lemma n_71 : mimplements ne_71. Proof. start; eapply e_wide; [reflexivity|vm_compute; reflexivity]. Qed.
Definition ne_72 : mentry := mkME "aesencwide256kl"%string [aLow (aM [0; 8; 32; 64; 128; 256; 512])] (f_a i_aesencwide256kl)
  [mkL PF3 2 0xD8 true (Some 2) [m_ Sany] Os0 I_none].
Lemma n_72 : mimplements ne_72. Proof. start; eapply e_wide; [reflexivity|vm_compute; reflexivity]. Qed.
Definition ne_73 : mentry := mkME "aesdecwide256kl"%string [aLow (aM [0; 8; 32; 64; 128; 256; 512])] (f_a i_aesdecwide256kl)
  [mkL PF3 2 0xD8 true (Some 3) [m_ Sany] Os0 I_none].
Lemma n_73 : mimplements ne_73. Proof. start; eapply e_wide; [reflexivity|vm_compute; reflexivity]. Qed.
Definition ne_74 : mentry := mkME "bt"%string [anyM [16; 32; 64]] (f_oi i_bt_oi)
  [mkL NP 1 0xBA true (Some 4) [rm_ KG true Sv] OsV I_8].
Lemma n_74 : mimplements ne_74. Proof. start; apply e_bti; [lia|reflexivity|vm_compute; reflexivity]. Qed.
Definition ne_75 : mentry := mkME "bts"%string [anyM [16; 32; 64]] (f_oi i_bts_oi)
  [mkL NP 1 0xBA true (Some 5) [rm_ KG true Sv] OsV I_8].
Lemma n_75 : mimplements ne_75. Proof. start; apply e_bti; [lia|reflexivity|vm_compute; reflexivity]. Qed.
Definition ne_76 : mentry := mkME "btr"%string [anyM [16; 32; 64]] (f_oi i_btr_oi)
  [mkL NP 1 0xBA true (Some 6) [rm_ KG true Sv] OsV I_8].
Lemma n_76 : mimplements ne_76. Proof. start; apply e_bti; [lia|reflexivity|vm_compute; reflexivity]. Qed.
Definition ne_77 : mentry := mkME "btc"%string [anyM [16; 32; 64]] (f_oi i_btc_oi)
  [mkL NP 1 0xBA true (Some 7) [rm_ KG true Sv] OsV I_8].
Lemma n_77 : mimplements ne_77. Proof. start; apply e_bti; [lia|reflexivity|vm_compute; reflexivity]. Qed.
Definition ne_78 : mentry := mkME "movdir64b"%string [aLow (aR [64]); aLow (aM [0; 8; 16; 32; 64; 128; 256; 512])] (f_ra i_movdir64b)
  [mkL P66 2 0xF8 true None [r_ KG (Sn 64); m_ Sany] OsN I_none].
Lemma n_78 : mimplements ne_78. Proof. start; apply movdir64b_ok; [reflexivity|vm_compute; reflexivity]. Qed.
Definition ne_79 : mentry := mkME "pextrw"%string [aR [32; 64]; aX] (f_ori i_pextrw)
  [mkL P66 1 0xC5 true None [r_ KG Sany; rm_ KX false Sany] OsN I_8].
Lemma n_79 : mimplements ne_79. Proof. start; apply (pextrw_reg aX P66 KX 128 _ (mkL NP 1 0xC5 true None [r_ KG Sany; rm_ KX false Sany] OsN I_8)); [left; auto 6|reflexivity|reflexivity|vm_compute; reflexivity]. Qed.
Definition ne_80 : mentry := mkME "pextrw"%string [aR [32; 64]; aMm] (f_ori i_pextrw)
  [mkL NP 1 0xC5 true None [r_ KG Sany; rm_ KM false Sany] OsN I_8].
Lemma n_80 : mimplements ne_80. Proof. start; eapply (pextrw_reg aMm NP KM 64); [right; repeat split; reflexivity|reflexivity|reflexivity|vm_compute; reflexivity]. Qed.
Definition ne_81 : mentry := mkME "in_"%string [aR [8; 16; 32; 64]; aR [8; 16; 32; 64]] (f_rr i_in__rr)
  [mkL NP 0 0xEC false None [acc_ Sv; mkOper (Implied 2) (Some KG) false (Sn 16)] OsB I_none].
Lemma n_81 : mimplements ne_81. Proof. exact in_dx. Qed.
Definition ne_82 : mentry := mkME "out_"%string [aR [8; 16; 32; 64]; aR [8; 16; 32; 64]] (f_rr i_out__rr)
  [mkL NP 0 0xEE false None [mkOper (Implied 2) (Some KG) false (Sn 16); acc_ Sv] OsB I_none].
Lemma n_82 : mimplements ne_82. Proof. exact out_dx. Qed.
Definition ne_83 : mentry := mkME "in_"%string [aR [8; 16; 32; 64]] (f_ri i_in__ri)
  [mkL NP 0 0xE4 false None [acc_ Sv] OsB I_8].
Lemma n_83 : mimplements ne_83. Proof. exact in_imm. Qed.
Definition ne_84 : mentry := mkME "out_"%string [aR [8; 16; 32; 64]] (f_ri (fun a v => i_out__ir v a))
  [mkL NP 0 0xE6 false None [acc_ Sv] OsB I_8].
Lemma n_84 : mimplements ne_84. Proof. exact out_imm. Qed.
Definition mix2_table : list mentry :=
  [ne_0; ne_1; ne_2; ne_3; ne_4; ne_5; ne_6; ne_7; ne_8; ne_9; ne_10; ne_11; ne_12; ne_13; ne_14; ne_15; ne_16; ne_17; ne_18; ne_19; ne_20; ne_21; ne_22; ne_23; ne_24; ne_25; ne_26; ne_27; ne_28; ne_29; ne_30; ne_31; ne_32; ne_33; ne_34; ne_35; ne_36; ne_37; ne_38; ne_39; ne_40; ne_41; ne_42; ne_43; ne_44; ne_45; ne_46; ne_47; ne_48; ne_49; ne_50; ne_51; ne_52; ne_53; ne_54; ne_55; ne_56; ne_57; ne_58; ne_59; ne_60; ne_61; ne_62; ne_63; ne_64; ne_65; ne_66; ne_67; ne_68; ne_69; ne_70; ne_71; ne_72; ne_73; ne_74; ne_75; ne_76; ne_77; ne_78; ne_79; ne_80; ne_81; ne_82; ne_83; ne_84].
Theorem mix2_all : Forall mimplements mix2_table.
Proof. unfold mix2_table. apply Forall_cons; [exact n_0|]. apply Forall_cons; [exact n_1|]. apply Forall_cons; [exact n_2|]. apply Forall_cons; [exact n_3|]. apply Forall_cons; [exact n_4|]. apply Forall_cons; [exact n_5|]. apply Forall_cons; [exact n_6|]. apply Forall_cons; [exact n_7|]. apply Forall_cons; [exact n_8|]. apply Forall_cons; [exact n_9|]. apply Forall_cons; [exact n_10|]. apply Forall_cons; [exact n_11|]. apply Forall_cons; [exact n_12|]. apply Forall_cons; [exact n_13|]. apply Forall_cons; [exact n_14|]. apply Forall_cons; [exact n_15|]. apply Forall_cons; [exact n_16|]. apply Forall_cons; [exact n_17|]. apply Forall_cons; [exact n_18|]. apply Forall_cons; [exact n_19|]. apply Forall_cons; [exact n_20|]. apply Forall_cons; [exact n_21|]. apply Forall_cons; [exact n_22|]. apply Forall_cons; [exact n_23|]. apply Forall_cons; [exact n_24|]. apply Forall_cons; [exact n_25|]. apply Forall_cons; [exact n_26|]. apply Forall_cons; [exact n_27|]. apply Forall_cons; [exact n_28|]. apply Forall_cons; [exact n_29|]. apply Forall_cons; [exact n_30|]. apply Forall_cons; [exact n_31|]. apply Forall_cons; [exact n_32|]. apply Forall_cons; [exact n_33|]. apply Forall_cons; [exact n_34|]. apply Forall_cons; [exact n_35|]. apply Forall_cons; [exact n_36|]. apply Forall_cons; [exact n_37|]. apply Forall_cons; [exact n_38|]. apply Forall_cons; [exact n_39|]. apply Forall_cons; [exact n_40|]. apply Forall_cons; [exact n_41|]. apply Forall_cons; [exact n_42|]. apply Forall_cons; [exact n_43|]. apply Forall_cons; [exact n_44|]. apply Forall_cons; [exact n_45|]. apply Forall_cons; [exact n_46|]. apply Forall_cons; [exact n_47|]. apply Forall_cons; [exact n_48|]. apply Forall_cons; [exact n_49|]. apply Forall_cons; [exact n_50|]. apply Forall_cons; [exact n_51|]. apply Forall_cons; [exact n_52|]. apply Forall_cons; [exact n_53|]. apply Forall_cons; [exact n_54|]. apply Forall_cons; [exact n_55|]. apply Forall_cons; [exact n_56|]. apply Forall_cons; [exact n_57|]. apply Forall_cons; [exact n_58|]. apply Forall_cons; [exact n_59|]. apply Forall_cons; [exact n_60|]. apply Forall_cons; [exact n_61|]. apply Forall_cons; [exact n_62|]. apply Forall_cons; [exact n_63|]. apply Forall_cons; [exact n_64|]. apply Forall_cons; [exact n_65|]. apply Forall_cons; [exact n_66|]. apply Forall_cons; [exact n_67|]. apply Forall_cons; [exact n_68|]. apply Forall_cons; [exact n_69|]. apply Forall_cons; [exact n_70|]. apply Forall_cons; [exact n_71|]. apply Forall_cons; [exact n_72|]. apply Forall_cons; [exact n_73|]. apply Forall_cons; [exact n_74|]. apply Forall_cons; [exact n_75|]. apply Forall_cons; [exact n_76|]. apply Forall_cons; [exact n_77|]. apply Forall_cons; [exact n_78|]. apply Forall_cons; [exact n_79|]. apply Forall_cons; [exact n_80|]. apply Forall_cons; [exact n_81|]. apply Forall_cons; [exact n_82|]. apply Forall_cons; [exact n_83|]. apply Forall_cons; [exact n_84|]. apply Forall_nil. Qed.
(* forms with WAIT *)
Definition ve_0 : mentry := mkME "fsave"%string [aM [0; 8; 16; 32; 64; 128; 256; 512]] (f_a i_fsave)
  [mkL NP 0 0xDD true (Some 6) [m_ Sany] Os0 I_none].
Lemma v_0 : wimplements ve_0. Proof. waitt 6. Qed.
Definition ve_1 : mentry := mkME "fstcw"%string [aM [0; 8; 16; 32; 64; 128; 256; 512]] (f_a i_fstcw)
  [mkL NP 0 0xD9 true (Some 7) [m_ Sany] Os0 I_none].
Lemma v_1 : wimplements ve_1. Proof. waitt 7. Qed.
Definition ve_2 : mentry := mkME "fstenv"%string [aM [0; 8; 16; 32; 64; 128; 256; 512]] (f_a i_fstenv)
  [mkL NP 0 0xD9 true (Some 6) [m_ Sany] Os0 I_none].
Lemma v_2 : wimplements ve_2. Proof. waitt 6. Qed.
Definition ve_3 : mentry := mkME "fstsw_a"%string [aM [0; 8; 16; 32; 64; 128; 256; 512]] (f_a i_fstsw_a)
  [mkL NP 0 0xDD true (Some 7) [m_ Sany] Os0 I_none].
Lemma v_3 : wimplements ve_3. Proof. waitt 7. Qed.
Definition wait_table : list mentry :=
  [ve_0; ve_1; ve_2; ve_3].
Theorem wait_all : Forall wimplements wait_table.
Proof. unfold wait_table. apply Forall_cons; [exact v_0|]. apply Forall_cons; [exact v_1|]. apply Forall_cons; [exact v_2|]. apply Forall_cons; [exact v_3|]. apply Forall_nil. Qed.
