(* GENERATED by tools/fixedtab.py: methods without operands and x87 register methods of xbyak_mnemonic.h. *)
From Coq Require Import ZArith List String.
From Verif Require Import Base Types Emit Mnemonic.
Import ListNotations.
Open Scope Z_scope.
Open Scope string_scope.

Definition fixed_methods : list (string * E unit) := [
  ("bnd", i_bnd); ("cbw", i_cbw); ("cdq", i_cdq); ("clc", i_clc); ("cld", i_cld); ("cli", i_cli);
  ("clzero", i_clzero); ("cmc", i_cmc); ("cmpsb", i_cmpsb); ("cmpsd", i_cmpsd_none); ("cmpsw", i_cmpsw);
  ("cpuid", i_cpuid); ("cwd", i_cwd); ("cwde", i_cwde); ("emms", i_emms); ("endbr32", i_endbr32);
  ("endbr64", i_endbr64); ("f2xm1", i_f2xm1); ("fabs", i_fabs); ("faddp", i_faddp_none); ("fchs", i_fchs);
  ("fclex", i_fclex); ("fcom", i_fcom_none); ("fcomp", i_fcomp_none); ("fcompp", i_fcompp); ("fcos", i_fcos);
  ("fdecstp", i_fdecstp); ("fdivp", i_fdivp_none); ("fdivrp", i_fdivrp_none); ("fincstp", i_fincstp);
  ("finit", i_finit); ("fld1", i_fld1); ("fldl2e", i_fldl2e); ("fldl2t", i_fldl2t); ("fldlg2", i_fldlg2);
  ("fldln2", i_fldln2); ("fldpi", i_fldpi); ("fldz", i_fldz); ("fmulp", i_fmulp_none); ("fnclex", i_fnclex);
  ("fninit", i_fninit); ("fnop", i_fnop); ("fpatan", i_fpatan); ("fprem", i_fprem); ("fprem1", i_fprem1);
  ("fptan", i_fptan); ("frndint", i_frndint); ("fscale", i_fscale); ("fsin", i_fsin); ("fsincos", i_fsincos);
  ("fsqrt", i_fsqrt); ("fsubp", i_fsubp_none); ("fsubrp", i_fsubrp_none); ("ftst", i_ftst);
  ("fucom", i_fucom_none); ("fucomp", i_fucomp_none); ("fucompp", i_fucompp); ("fwait", i_fwait);
  ("fxam", i_fxam); ("fxch", i_fxch_none); ("fxtract", i_fxtract); ("fyl2x", i_fyl2x);
  ("fyl2xp1", i_fyl2xp1); ("hlt", i_hlt); ("int3", i_int3); ("lahf", i_lahf); ("leave", i_leave);
  ("lfence", i_lfence); ("lock", i_lock); ("lodsb", i_lodsb); ("lodsd", i_lodsd); ("lodsw", i_lodsw);
  ("mfence", i_mfence); ("monitor", i_monitor); ("monitorx", i_monitorx); ("movsb", i_movsb);
  ("movsd", i_movsd_none); ("movsw", i_movsw); ("mwait", i_mwait); ("mwaitx", i_mwaitx); ("outsb", i_outsb);
  ("outsd", i_outsd); ("outsw", i_outsw); ("pause", i_pause); ("popf", i_popf); ("pushf", i_pushf);
  ("rdmsr", i_rdmsr); ("rdpmc", i_rdpmc); ("rdtsc", i_rdtsc); ("rdtscp", i_rdtscp); ("rep", i_rep);
  ("repe", i_repe); ("repne", i_repne); ("repnz", i_repnz); ("repz", i_repz); ("sahf", i_sahf);
  ("scasb", i_scasb); ("scasd", i_scasd); ("scasw", i_scasw); ("serialize", i_serialize);
  ("sfence", i_sfence); ("stac", i_stac); ("stc", i_stc); ("std", i_std); ("sti", i_sti); ("stosb", i_stosb);
  ("stosd", i_stosd); ("stosw", i_stosw); ("sysenter", i_sysenter); ("sysexit", i_sysexit); ("ud2", i_ud2);
  ("vzeroall", i_vzeroall); ("vzeroupper", i_vzeroupper); ("wait", i_wait); ("wbinvd", i_wbinvd);
  ("wrmsr", i_wrmsr); ("xend", i_xend); ("xgetbv", i_xgetbv); ("xlatb", i_xlatb); ("xresldtrk", i_xresldtrk);
  ("xsusldtrk", i_xsusldtrk); ("cdqe", i_cdqe); ("cqo", i_cqo); ("cmpsq", i_cmpsq); ("popfq", i_popfq);
  ("pushfq", i_pushfq); ("lodsq", i_lodsq); ("movsq", i_movsq); ("scasq", i_scasq); ("stosq", i_stosq);
  ("syscall", i_syscall); ("sysret", i_sysret); ("clui", i_clui); ("stui", i_stui); ("testui", i_testui);
  ("uiret", i_uiret); ("tilerelease", i_tilerelease)].
(* st(0), st(i) or st(i), st(0) *)
Definition x87_two : list (string * (Reg -> Reg -> E unit)) := [
  ("fadd", i_fadd_ff); ("faddp", i_faddp_ff); ("fdiv", i_fdiv_ff); ("fdivp", i_fdivp_ff);
  ("fdivr", i_fdivr_ff); ("fdivrp", i_fdivrp_ff); ("fmul", i_fmul_ff); ("fmulp", i_fmulp_ff);
  ("fsub", i_fsub_ff); ("fsubp", i_fsubp_ff); ("fsubr", i_fsubr_ff); ("fsubrp", i_fsubrp_ff)].
(* instructions with the form st(0), st(i) only *)
Definition x87_to0 : list (string * (Reg -> Reg -> E unit)) := [
  ("fcmovb", i_fcmovb_ff); ("fcmovbe", i_fcmovbe_ff); ("fcmove", i_fcmove_ff); ("fcmovnb", i_fcmovnb_ff);
  ("fcmovnbe", i_fcmovnbe_ff); ("fcmovne", i_fcmovne_ff); ("fcmovnu", i_fcmovnu_ff); ("fcmovu", i_fcmovu_ff);
  ("fcomi", i_fcomi_ff); ("fcomip", i_fcomip_ff); ("fucomi", i_fucomi_ff); ("fucomip", i_fucomip_ff)].
(* one parameter: st(0), st(i) *)
Definition x87_one : list (string * (Reg -> E unit)) := [
  ("fadd", i_fadd_f); ("fcmovb", i_fcmovb_f); ("fcmovbe", i_fcmovbe_f); ("fcmove", i_fcmove_f);
  ("fcmovnb", i_fcmovnb_f); ("fcmovnbe", i_fcmovnbe_f); ("fcmovne", i_fcmovne_f); ("fcmovnu", i_fcmovnu_f);
  ("fcmovu", i_fcmovu_f); ("fcomi", i_fcomi_f); ("fcomip", i_fcomip_f); ("fdiv", i_fdiv_f);
  ("fdivr", i_fdivr_f); ("fmul", i_fmul_f); ("fsub", i_fsub_f); ("fsubr", i_fsubr_f); ("fucomi", i_fucomi_f);
  ("fucomip", i_fucomip_f)].
(* one parameter: st(i), st(0) *)
Definition x87_onep : list (string * (Reg -> E unit)) := [
  ("faddp", i_faddp_f); ("fdivp", i_fdivp_f); ("fdivrp", i_fdivrp_f); ("fmulp", i_fmulp_f);
  ("fsubp", i_fsubp_f); ("fsubrp", i_fsubrp_f)].
(* st(i) *)
Definition x87_single : list (string * (Reg -> E unit)) := [
  ("fcom", i_fcom_f); ("fcomp", i_fcomp_f); ("ffree", i_ffree); ("fld", i_fld_f); ("fst", i_fst_f);
  ("fstp", i_fstp_f); ("fucom", i_fucom_f); ("fucomp", i_fucomp_f); ("fxch", i_fxch_f)].
