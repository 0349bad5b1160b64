(* The VEX / EVEX instruction table of the Intel SDM vol. 2 (with the AVX10.2 rows of the AVX10.2
   specification), in the vocabulary of SpecIsa.v; produced by tools/isa.py, where the rows are typed
   in.  Row names: mnemonic and the parameter classes of the xbyak overload it is compared with. *)
From Coq Require Import ZArith List.
From Verif Require Import SpecX86 SpecIsa.
Open Scope Z_scope.

Definition r_vaddps_xoo := mkRow RVM None (V Lxy NP M0F WIG 0x58) (EV Lxyz NP M0F W0 0x58 (FV 4) Er).
Definition r_vaddpd_xoo := mkRow RVM None (V Lxy P66 M0F WIG 0x58) (EV Lxyz P66 M0F W1 0x58 (FV 8) Er).
Definition r_vaddss_xoo := mkRow RVM None (V LIG PF3 M0F WIG 0x58) (EV LIG PF3 M0F W0 0x58 (TS 4) Er).
Definition r_vaddsd_xoo := mkRow RVM None (V LIG PF2 M0F WIG 0x58) (EV LIG PF2 M0F W1 0x58 (TS 8) Er).
Definition r_vaddph_xoo := mkRow RVM None no_vex (EV Lxyz NP MAP5 W0 0x58 (FV 2) Er).
Definition r_vaddsh_xoo := mkRow RVM None no_vex (EV LIG PF3 MAP5 W0 0x58 (TS 2) Er).
Definition r_vmulps_xoo := mkRow RVM None (V Lxy NP M0F WIG 0x59) (EV Lxyz NP M0F W0 0x59 (FV 4) Er).
Definition r_vmulpd_xoo := mkRow RVM None (V Lxy P66 M0F WIG 0x59) (EV Lxyz P66 M0F W1 0x59 (FV 8) Er).
Definition r_vmulss_xoo := mkRow RVM None (V LIG PF3 M0F WIG 0x59) (EV LIG PF3 M0F W0 0x59 (TS 4) Er).
Definition r_vmulsd_xoo := mkRow RVM None (V LIG PF2 M0F WIG 0x59) (EV LIG PF2 M0F W1 0x59 (TS 8) Er).
Definition r_vmulph_xoo := mkRow RVM None no_vex (EV Lxyz NP MAP5 W0 0x59 (FV 2) Er).
Definition r_vmulsh_xoo := mkRow RVM None no_vex (EV LIG PF3 MAP5 W0 0x59 (TS 2) Er).
Definition r_vsubps_xoo := mkRow RVM None (V Lxy NP M0F WIG 0x5C) (EV Lxyz NP M0F W0 0x5C (FV 4) Er).
Definition r_vsubpd_xoo := mkRow RVM None (V Lxy P66 M0F WIG 0x5C) (EV Lxyz P66 M0F W1 0x5C (FV 8) Er).
Definition r_vsubss_xoo := mkRow RVM None (V LIG PF3 M0F WIG 0x5C) (EV LIG PF3 M0F W0 0x5C (TS 4) Er).
Definition r_vsubsd_xoo := mkRow RVM None (V LIG PF2 M0F WIG 0x5C) (EV LIG PF2 M0F W1 0x5C (TS 8) Er).
Definition r_vsubph_xoo := mkRow RVM None no_vex (EV Lxyz NP MAP5 W0 0x5C (FV 2) Er).
Definition r_vsubsh_xoo := mkRow RVM None no_vex (EV LIG PF3 MAP5 W0 0x5C (TS 2) Er).
Definition r_vminps_xoo := mkRow RVM None (V Lxy NP M0F WIG 0x5D) (EV Lxyz NP M0F W0 0x5D (FV 4) Sae).
Definition r_vminpd_xoo := mkRow RVM None (V Lxy P66 M0F WIG 0x5D) (EV Lxyz P66 M0F W1 0x5D (FV 8) Sae).
Definition r_vminss_xoo := mkRow RVM None (V LIG PF3 M0F WIG 0x5D) (EV LIG PF3 M0F W0 0x5D (TS 4) Sae).
Definition r_vminsd_xoo := mkRow RVM None (V LIG PF2 M0F WIG 0x5D) (EV LIG PF2 M0F W1 0x5D (TS 8) Sae).
Definition r_vminph_xoo := mkRow RVM None no_vex (EV Lxyz NP MAP5 W0 0x5D (FV 2) Sae).
Definition r_vminsh_xoo := mkRow RVM None no_vex (EV LIG PF3 MAP5 W0 0x5D (TS 2) Sae).
Definition r_vdivps_xoo := mkRow RVM None (V Lxy NP M0F WIG 0x5E) (EV Lxyz NP M0F W0 0x5E (FV 4) Er).
Definition r_vdivpd_xoo := mkRow RVM None (V Lxy P66 M0F WIG 0x5E) (EV Lxyz P66 M0F W1 0x5E (FV 8) Er).
Definition r_vdivss_xoo := mkRow RVM None (V LIG PF3 M0F WIG 0x5E) (EV LIG PF3 M0F W0 0x5E (TS 4) Er).
Definition r_vdivsd_xoo := mkRow RVM None (V LIG PF2 M0F WIG 0x5E) (EV LIG PF2 M0F W1 0x5E (TS 8) Er).
Definition r_vdivph_xoo := mkRow RVM None no_vex (EV Lxyz NP MAP5 W0 0x5E (FV 2) Er).
Definition r_vdivsh_xoo := mkRow RVM None no_vex (EV LIG PF3 MAP5 W0 0x5E (TS 2) Er).
Definition r_vmaxps_xoo := mkRow RVM None (V Lxy NP M0F WIG 0x5F) (EV Lxyz NP M0F W0 0x5F (FV 4) Sae).
Definition r_vmaxpd_xoo := mkRow RVM None (V Lxy P66 M0F WIG 0x5F) (EV Lxyz P66 M0F W1 0x5F (FV 8) Sae).
Definition r_vmaxss_xoo := mkRow RVM None (V LIG PF3 M0F WIG 0x5F) (EV LIG PF3 M0F W0 0x5F (TS 4) Sae).
Definition r_vmaxsd_xoo := mkRow RVM None (V LIG PF2 M0F WIG 0x5F) (EV LIG PF2 M0F W1 0x5F (TS 8) Sae).
Definition r_vmaxph_xoo := mkRow RVM None no_vex (EV Lxyz NP MAP5 W0 0x5F (FV 2) Sae).
Definition r_vmaxsh_xoo := mkRow RVM None no_vex (EV LIG PF3 MAP5 W0 0x5F (TS 2) Sae).
Definition r_vaddnepbf16_xxo := mkRow RVM None no_vex (EV Lxyz P66 MAP5 W0 0x58 (FV 2) NoRc).
Definition r_vmulnepbf16_xxo := mkRow RVM None no_vex (EV Lxyz P66 MAP5 W0 0x59 (FV 2) NoRc).
Definition r_vsubnepbf16_xxo := mkRow RVM None no_vex (EV Lxyz P66 MAP5 W0 0x5C (FV 2) NoRc).
Definition r_vminpbf16_xxo := mkRow RVM None no_vex (EV Lxyz P66 MAP5 W0 0x5D (FV 2) NoRc).
Definition r_vdivnepbf16_xxo := mkRow RVM None no_vex (EV Lxyz P66 MAP5 W0 0x5E (FV 2) NoRc).
Definition r_vmaxpbf16_xxo := mkRow RVM None no_vex (EV Lxyz P66 MAP5 W0 0x5F (FV 2) NoRc).
Definition r_vaddsubpd_xoo := mkRow RVM None (V Lxy P66 M0F WIG 0xD0) no_evex.
Definition r_vaddsubps_xoo := mkRow RVM None (V Lxy PF2 M0F WIG 0xD0) no_evex.
Definition r_vhaddpd_xoo := mkRow RVM None (V Lxy P66 M0F WIG 0x7C) no_evex.
Definition r_vhaddps_xoo := mkRow RVM None (V Lxy PF2 M0F WIG 0x7C) no_evex.
Definition r_vhsubpd_xoo := mkRow RVM None (V Lxy P66 M0F WIG 0x7D) no_evex.
Definition r_vhsubps_xoo := mkRow RVM None (V Lxy PF2 M0F WIG 0x7D) no_evex.
Definition r_vandps_xoo := mkRow RVM None (V Lxy NP M0F WIG 0x54) (EV Lxyz NP M0F W0 0x54 (FV 4) NoRc).
Definition r_vandpd_xoo := mkRow RVM None (V Lxy P66 M0F WIG 0x54) (EV Lxyz P66 M0F W1 0x54 (FV 8) NoRc).
Definition r_vandnps_xoo := mkRow RVM None (V Lxy NP M0F WIG 0x55) (EV Lxyz NP M0F W0 0x55 (FV 4) NoRc).
Definition r_vandnpd_xoo := mkRow RVM None (V Lxy P66 M0F WIG 0x55) (EV Lxyz P66 M0F W1 0x55 (FV 8) NoRc).
Definition r_vorps_xoo := mkRow RVM None (V Lxy NP M0F WIG 0x56) (EV Lxyz NP M0F W0 0x56 (FV 4) NoRc).
Definition r_vorpd_xoo := mkRow RVM None (V Lxy P66 M0F WIG 0x56) (EV Lxyz P66 M0F W1 0x56 (FV 8) NoRc).
Definition r_vxorps_xoo := mkRow RVM None (V Lxy NP M0F WIG 0x57) (EV Lxyz NP M0F W0 0x57 (FV 4) NoRc).
Definition r_vxorpd_xoo := mkRow RVM None (V Lxy P66 M0F WIG 0x57) (EV Lxyz P66 M0F W1 0x57 (FV 8) NoRc).
Definition r_vaesenc_xoo := mkRow RVM None (V Lxy P66 M0F38 WIG 0xDC) (EV Lxyz P66 M0F38 WIG 0xDC FVM NoRc).
Definition r_vaesenclast_xoo := mkRow RVM None (V Lxy P66 M0F38 WIG 0xDD) (EV Lxyz P66 M0F38 WIG 0xDD FVM NoRc).
Definition r_vaesdec_xoo := mkRow RVM None (V Lxy P66 M0F38 WIG 0xDE) (EV Lxyz P66 M0F38 WIG 0xDE FVM NoRc).
Definition r_vaesdeclast_xoo := mkRow RVM None (V Lxy P66 M0F38 WIG 0xDF) (EV Lxyz P66 M0F38 WIG 0xDF FVM NoRc).
Definition r_vblendps_xxoi := mkRow RVMI None (V Lxy P66 M0F3A WIG 0x0C) no_evex.
Definition r_vblendpd_xxoi := mkRow RVMI None (V Lxy P66 M0F3A WIG 0x0D) no_evex.
Definition r_vblendvps_xxox := mkRow RVM4 None (V Lxy P66 M0F3A W0 0x4A) no_evex.
Definition r_vblendvpd_xxox := mkRow RVM4 None (V Lxy P66 M0F3A W0 0x4B) no_evex.
Definition r_vpblendvb_xxox := mkRow RVM4 None (V Lxy P66 M0F3A W0 0x4C) no_evex.
Definition r_vcmpps_xxoi := mkRow RVMI None (V Lxy NP M0F WIG 0xC2) no_evex.
Definition r_vcmppd_xxoi := mkRow RVMI None (V Lxy P66 M0F WIG 0xC2) no_evex.
Definition r_vcmpss_xxoi := mkRow RVMI None (V LIG PF3 M0F WIG 0xC2) no_evex.
Definition r_vcmpsd_xxoi := mkRow RVMI None (V LIG PF2 M0F WIG 0xC2) no_evex.
Definition r_vcvtsd2si_do := mkRow RM None (V LIG PF2 M0F W0 0x2D) (EV LIG PF2 M0F W0 0x2D (TS 8) Er).
Definition r_vcvtsd2si_qo := mkRow RM None (V LIG PF2 M0F W1 0x2D) (EV LIG PF2 M0F W1 0x2D (TS 8) Er).
Definition r_vcvtss2si_do := mkRow RM None (V LIG PF3 M0F W0 0x2D) (EV LIG PF3 M0F W0 0x2D (TS 4) Er).
Definition r_vcvtss2si_qo := mkRow RM None (V LIG PF3 M0F W1 0x2D) (EV LIG PF3 M0F W1 0x2D (TS 4) Er).
Definition r_vcvttsd2si_do := mkRow RM None (V LIG PF2 M0F W0 0x2C) (EV LIG PF2 M0F W0 0x2C (TS 8) Sae).
Definition r_vcvttsd2si_qo := mkRow RM None (V LIG PF2 M0F W1 0x2C) (EV LIG PF2 M0F W1 0x2C (TS 8) Sae).
Definition r_vcvttss2si_do := mkRow RM None (V LIG PF3 M0F W0 0x2C) (EV LIG PF3 M0F W0 0x2C (TS 4) Sae).
Definition r_vcvttss2si_qo := mkRow RM None (V LIG PF3 M0F W1 0x2C) (EV LIG PF3 M0F W1 0x2C (TS 4) Sae).
Definition r_vcvtsd2ss_xxo := mkRow RVM None (V LIG PF2 M0F WIG 0x5A) (EV LIG PF2 M0F W1 0x5A (TS 8) Er).
Definition r_vcvtss2sd_xxo := mkRow RVM None (V LIG PF3 M0F WIG 0x5A) (EV LIG PF3 M0F W0 0x5A (TS 4) Sae).
Definition r_vdpps_xxoi := mkRow RVMI None (V Lxy P66 M0F3A WIG 0x40) no_evex.
Definition r_vdppd_xxoi := mkRow RVMI None (V Lx P66 M0F3A WIG 0x41) no_evex.
Definition r_vfmaddsub132ps_xxo := mkRow RVM None (V Lxy P66 M0F38 W0 0x96) (EV Lxyz P66 M0F38 W0 0x96 (FV 4) Er).
Definition r_vfmaddsub132pd_xxo := mkRow RVM None (V Lxy P66 M0F38 W1 0x96) (EV Lxyz P66 M0F38 W1 0x96 (FV 8) Er).
Definition r_vfmaddsub132ph_xxo := mkRow RVM None no_vex (EV Lxyz P66 MAP6 W0 0x96 (FV 2) Er).
Definition r_vfmsubadd132ps_xxo := mkRow RVM None (V Lxy P66 M0F38 W0 0x97) (EV Lxyz P66 M0F38 W0 0x97 (FV 4) Er).
Definition r_vfmsubadd132pd_xxo := mkRow RVM None (V Lxy P66 M0F38 W1 0x97) (EV Lxyz P66 M0F38 W1 0x97 (FV 8) Er).
Definition r_vfmsubadd132ph_xxo := mkRow RVM None no_vex (EV Lxyz P66 MAP6 W0 0x97 (FV 2) Er).
Definition r_vfmadd132ps_xxo := mkRow RVM None (V Lxy P66 M0F38 W0 0x98) (EV Lxyz P66 M0F38 W0 0x98 (FV 4) Er).
Definition r_vfmadd132pd_xxo := mkRow RVM None (V Lxy P66 M0F38 W1 0x98) (EV Lxyz P66 M0F38 W1 0x98 (FV 8) Er).
Definition r_vfmadd132ph_xxo := mkRow RVM None no_vex (EV Lxyz P66 MAP6 W0 0x98 (FV 2) Er).
Definition r_vfmadd132nepbf16_xxo := mkRow RVM None no_vex (EV Lxyz NP MAP6 W0 0x98 (FV 2) NoRc).
Definition r_vfmadd132ss_xxo := mkRow RVM None (V LIG P66 M0F38 W0 0x99) (EV LIG P66 M0F38 W0 0x99 (TS 4) Er).
Definition r_vfmadd132sd_xxo := mkRow RVM None (V LIG P66 M0F38 W1 0x99) (EV LIG P66 M0F38 W1 0x99 (TS 8) Er).
Definition r_vfmadd132sh_xxo := mkRow RVM None no_vex (EV LIG P66 MAP6 W0 0x99 (TS 2) Er).
Definition r_vfmsub132ps_xxo := mkRow RVM None (V Lxy P66 M0F38 W0 0x9A) (EV Lxyz P66 M0F38 W0 0x9A (FV 4) Er).
Definition r_vfmsub132pd_xxo := mkRow RVM None (V Lxy P66 M0F38 W1 0x9A) (EV Lxyz P66 M0F38 W1 0x9A (FV 8) Er).
Definition r_vfmsub132ph_xxo := mkRow RVM None no_vex (EV Lxyz P66 MAP6 W0 0x9A (FV 2) Er).
Definition r_vfmsub132nepbf16_xxo := mkRow RVM None no_vex (EV Lxyz NP MAP6 W0 0x9A (FV 2) NoRc).
Definition r_vfmsub132ss_xxo := mkRow RVM None (V LIG P66 M0F38 W0 0x9B) (EV LIG P66 M0F38 W0 0x9B (TS 4) Er).
Definition r_vfmsub132sd_xxo := mkRow RVM None (V LIG P66 M0F38 W1 0x9B) (EV LIG P66 M0F38 W1 0x9B (TS 8) Er).
Definition r_vfmsub132sh_xxo := mkRow RVM None no_vex (EV LIG P66 MAP6 W0 0x9B (TS 2) Er).
Definition r_vfnmadd132ps_xxo := mkRow RVM None (V Lxy P66 M0F38 W0 0x9C) (EV Lxyz P66 M0F38 W0 0x9C (FV 4) Er).
Definition r_vfnmadd132pd_xxo := mkRow RVM None (V Lxy P66 M0F38 W1 0x9C) (EV Lxyz P66 M0F38 W1 0x9C (FV 8) Er).
Definition r_vfnmadd132ph_xxo := mkRow RVM None no_vex (EV Lxyz P66 MAP6 W0 0x9C (FV 2) Er).
Definition r_vfnmadd132nepbf16_xxo := mkRow RVM None no_vex (EV Lxyz NP MAP6 W0 0x9C (FV 2) NoRc).
Definition r_vfnmadd132ss_xxo := mkRow RVM None (V LIG P66 M0F38 W0 0x9D) (EV LIG P66 M0F38 W0 0x9D (TS 4) Er).
Definition r_vfnmadd132sd_xxo := mkRow RVM None (V LIG P66 M0F38 W1 0x9D) (EV LIG P66 M0F38 W1 0x9D (TS 8) Er).
Definition r_vfnmadd132sh_xxo := mkRow RVM None no_vex (EV LIG P66 MAP6 W0 0x9D (TS 2) Er).
Definition r_vfnmsub132ps_xxo := mkRow RVM None (V Lxy P66 M0F38 W0 0x9E) (EV Lxyz P66 M0F38 W0 0x9E (FV 4) Er).
Definition r_vfnmsub132pd_xxo := mkRow RVM None (V Lxy P66 M0F38 W1 0x9E) (EV Lxyz P66 M0F38 W1 0x9E (FV 8) Er).
Definition r_vfnmsub132ph_xxo := mkRow RVM None no_vex (EV Lxyz P66 MAP6 W0 0x9E (FV 2) Er).
Definition r_vfnmsub132nepbf16_xxo := mkRow RVM None no_vex (EV Lxyz NP MAP6 W0 0x9E (FV 2) NoRc).
Definition r_vfnmsub132ss_xxo := mkRow RVM None (V LIG P66 M0F38 W0 0x9F) (EV LIG P66 M0F38 W0 0x9F (TS 4) Er).
Definition r_vfnmsub132sd_xxo := mkRow RVM None (V LIG P66 M0F38 W1 0x9F) (EV LIG P66 M0F38 W1 0x9F (TS 8) Er).
Definition r_vfnmsub132sh_xxo := mkRow RVM None no_vex (EV LIG P66 MAP6 W0 0x9F (TS 2) Er).
Definition r_vfmaddsub213ps_xxo := mkRow RVM None (V Lxy P66 M0F38 W0 0xA6) (EV Lxyz P66 M0F38 W0 0xA6 (FV 4) Er).
Definition r_vfmaddsub213pd_xxo := mkRow RVM None (V Lxy P66 M0F38 W1 0xA6) (EV Lxyz P66 M0F38 W1 0xA6 (FV 8) Er).
Definition r_vfmaddsub213ph_xxo := mkRow RVM None no_vex (EV Lxyz P66 MAP6 W0 0xA6 (FV 2) Er).
Definition r_vfmsubadd213ps_xxo := mkRow RVM None (V Lxy P66 M0F38 W0 0xA7) (EV Lxyz P66 M0F38 W0 0xA7 (FV 4) Er).
Definition r_vfmsubadd213pd_xxo := mkRow RVM None (V Lxy P66 M0F38 W1 0xA7) (EV Lxyz P66 M0F38 W1 0xA7 (FV 8) Er).
Definition r_vfmsubadd213ph_xxo := mkRow RVM None no_vex (EV Lxyz P66 MAP6 W0 0xA7 (FV 2) Er).
Definition r_vfmadd213ps_xxo := mkRow RVM None (V Lxy P66 M0F38 W0 0xA8) (EV Lxyz P66 M0F38 W0 0xA8 (FV 4) Er).
Definition r_vfmadd213pd_xxo := mkRow RVM None (V Lxy P66 M0F38 W1 0xA8) (EV Lxyz P66 M0F38 W1 0xA8 (FV 8) Er).
Definition r_vfmadd213ph_xxo := mkRow RVM None no_vex (EV Lxyz P66 MAP6 W0 0xA8 (FV 2) Er).
Definition r_vfmadd213nepbf16_xxo := mkRow RVM None no_vex (EV Lxyz NP MAP6 W0 0xA8 (FV 2) NoRc).
Definition r_vfmadd213ss_xxo := mkRow RVM None (V LIG P66 M0F38 W0 0xA9) (EV LIG P66 M0F38 W0 0xA9 (TS 4) Er).
Definition r_vfmadd213sd_xxo := mkRow RVM None (V LIG P66 M0F38 W1 0xA9) (EV LIG P66 M0F38 W1 0xA9 (TS 8) Er).
Definition r_vfmadd213sh_xxo := mkRow RVM None no_vex (EV LIG P66 MAP6 W0 0xA9 (TS 2) Er).
Definition r_vfmsub213ps_xxo := mkRow RVM None (V Lxy P66 M0F38 W0 0xAA) (EV Lxyz P66 M0F38 W0 0xAA (FV 4) Er).
Definition r_vfmsub213pd_xxo := mkRow RVM None (V Lxy P66 M0F38 W1 0xAA) (EV Lxyz P66 M0F38 W1 0xAA (FV 8) Er).
Definition r_vfmsub213ph_xxo := mkRow RVM None no_vex (EV Lxyz P66 MAP6 W0 0xAA (FV 2) Er).
Definition r_vfmsub213nepbf16_xxo := mkRow RVM None no_vex (EV Lxyz NP MAP6 W0 0xAA (FV 2) NoRc).
Definition r_vfmsub213ss_xxo := mkRow RVM None (V LIG P66 M0F38 W0 0xAB) (EV LIG P66 M0F38 W0 0xAB (TS 4) Er).
Definition r_vfmsub213sd_xxo := mkRow RVM None (V LIG P66 M0F38 W1 0xAB) (EV LIG P66 M0F38 W1 0xAB (TS 8) Er).
Definition r_vfmsub213sh_xxo := mkRow RVM None no_vex (EV LIG P66 MAP6 W0 0xAB (TS 2) Er).
Definition r_vfnmadd213ps_xxo := mkRow RVM None (V Lxy P66 M0F38 W0 0xAC) (EV Lxyz P66 M0F38 W0 0xAC (FV 4) Er).
Definition r_vfnmadd213pd_xxo := mkRow RVM None (V Lxy P66 M0F38 W1 0xAC) (EV Lxyz P66 M0F38 W1 0xAC (FV 8) Er).
Definition r_vfnmadd213ph_xxo := mkRow RVM None no_vex (EV Lxyz P66 MAP6 W0 0xAC (FV 2) Er).
Definition r_vfnmadd213nepbf16_xxo := mkRow RVM None no_vex (EV Lxyz NP MAP6 W0 0xAC (FV 2) NoRc).
Definition r_vfnmadd213ss_xxo := mkRow RVM None (V LIG P66 M0F38 W0 0xAD) (EV LIG P66 M0F38 W0 0xAD (TS 4) Er).
Definition r_vfnmadd213sd_xxo := mkRow RVM None (V LIG P66 M0F38 W1 0xAD) (EV LIG P66 M0F38 W1 0xAD (TS 8) Er).
Definition r_vfnmadd213sh_xxo := mkRow RVM None no_vex (EV LIG P66 MAP6 W0 0xAD (TS 2) Er).
Definition r_vfnmsub213ps_xxo := mkRow RVM None (V Lxy P66 M0F38 W0 0xAE) (EV Lxyz P66 M0F38 W0 0xAE (FV 4) Er).
Definition r_vfnmsub213pd_xxo := mkRow RVM None (V Lxy P66 M0F38 W1 0xAE) (EV Lxyz P66 M0F38 W1 0xAE (FV 8) Er).
Definition r_vfnmsub213ph_xxo := mkRow RVM None no_vex (EV Lxyz P66 MAP6 W0 0xAE (FV 2) Er).
Definition r_vfnmsub213nepbf16_xxo := mkRow RVM None no_vex (EV Lxyz NP MAP6 W0 0xAE (FV 2) NoRc).
Definition r_vfnmsub213ss_xxo := mkRow RVM None (V LIG P66 M0F38 W0 0xAF) (EV LIG P66 M0F38 W0 0xAF (TS 4) Er).
Definition r_vfnmsub213sd_xxo := mkRow RVM None (V LIG P66 M0F38 W1 0xAF) (EV LIG P66 M0F38 W1 0xAF (TS 8) Er).
Definition r_vfnmsub213sh_xxo := mkRow RVM None no_vex (EV LIG P66 MAP6 W0 0xAF (TS 2) Er).
Definition r_vfmaddsub231ps_xxo := mkRow RVM None (V Lxy P66 M0F38 W0 0xB6) (EV Lxyz P66 M0F38 W0 0xB6 (FV 4) Er).
Definition r_vfmaddsub231pd_xxo := mkRow RVM None (V Lxy P66 M0F38 W1 0xB6) (EV Lxyz P66 M0F38 W1 0xB6 (FV 8) Er).
Definition r_vfmaddsub231ph_xxo := mkRow RVM None no_vex (EV Lxyz P66 MAP6 W0 0xB6 (FV 2) Er).
Definition r_vfmsubadd231ps_xxo := mkRow RVM None (V Lxy P66 M0F38 W0 0xB7) (EV Lxyz P66 M0F38 W0 0xB7 (FV 4) Er).
Definition r_vfmsubadd231pd_xxo := mkRow RVM None (V Lxy P66 M0F38 W1 0xB7) (EV Lxyz P66 M0F38 W1 0xB7 (FV 8) Er).
Definition r_vfmsubadd231ph_xxo := mkRow RVM None no_vex (EV Lxyz P66 MAP6 W0 0xB7 (FV 2) Er).
Definition r_vfmadd231ps_xxo := mkRow RVM None (V Lxy P66 M0F38 W0 0xB8) (EV Lxyz P66 M0F38 W0 0xB8 (FV 4) Er).
Definition r_vfmadd231pd_xxo := mkRow RVM None (V Lxy P66 M0F38 W1 0xB8) (EV Lxyz P66 M0F38 W1 0xB8 (FV 8) Er).
Definition r_vfmadd231ph_xxo := mkRow RVM None no_vex (EV Lxyz P66 MAP6 W0 0xB8 (FV 2) Er).
Definition r_vfmadd231nepbf16_xxo := mkRow RVM None no_vex (EV Lxyz NP MAP6 W0 0xB8 (FV 2) NoRc).
Definition r_vfmadd231ss_xxo := mkRow RVM None (V LIG P66 M0F38 W0 0xB9) (EV LIG P66 M0F38 W0 0xB9 (TS 4) Er).
Definition r_vfmadd231sd_xxo := mkRow RVM None (V LIG P66 M0F38 W1 0xB9) (EV LIG P66 M0F38 W1 0xB9 (TS 8) Er).
Definition r_vfmadd231sh_xxo := mkRow RVM None no_vex (EV LIG P66 MAP6 W0 0xB9 (TS 2) Er).
Definition r_vfmsub231ps_xxo := mkRow RVM None (V Lxy P66 M0F38 W0 0xBA) (EV Lxyz P66 M0F38 W0 0xBA (FV 4) Er).
Definition r_vfmsub231pd_xxo := mkRow RVM None (V Lxy P66 M0F38 W1 0xBA) (EV Lxyz P66 M0F38 W1 0xBA (FV 8) Er).
Definition r_vfmsub231ph_xxo := mkRow RVM None no_vex (EV Lxyz P66 MAP6 W0 0xBA (FV 2) Er).
Definition r_vfmsub231nepbf16_xxo := mkRow RVM None no_vex (EV Lxyz NP MAP6 W0 0xBA (FV 2) NoRc).
Definition r_vfmsub231ss_xxo := mkRow RVM None (V LIG P66 M0F38 W0 0xBB) (EV LIG P66 M0F38 W0 0xBB (TS 4) Er).
Definition r_vfmsub231sd_xxo := mkRow RVM None (V LIG P66 M0F38 W1 0xBB) (EV LIG P66 M0F38 W1 0xBB (TS 8) Er).
Definition r_vfmsub231sh_xxo := mkRow RVM None no_vex (EV LIG P66 MAP6 W0 0xBB (TS 2) Er).
Definition r_vfnmadd231ps_xxo := mkRow RVM None (V Lxy P66 M0F38 W0 0xBC) (EV Lxyz P66 M0F38 W0 0xBC (FV 4) Er).
Definition r_vfnmadd231pd_xxo := mkRow RVM None (V Lxy P66 M0F38 W1 0xBC) (EV Lxyz P66 M0F38 W1 0xBC (FV 8) Er).
Definition r_vfnmadd231ph_xxo := mkRow RVM None no_vex (EV Lxyz P66 MAP6 W0 0xBC (FV 2) Er).
Definition r_vfnmadd231nepbf16_xxo := mkRow RVM None no_vex (EV Lxyz NP MAP6 W0 0xBC (FV 2) NoRc).
Definition r_vfnmadd231ss_xxo := mkRow RVM None (V LIG P66 M0F38 W0 0xBD) (EV LIG P66 M0F38 W0 0xBD (TS 4) Er).
Definition r_vfnmadd231sd_xxo := mkRow RVM None (V LIG P66 M0F38 W1 0xBD) (EV LIG P66 M0F38 W1 0xBD (TS 8) Er).
Definition r_vfnmadd231sh_xxo := mkRow RVM None no_vex (EV LIG P66 MAP6 W0 0xBD (TS 2) Er).
Definition r_vfnmsub231ps_xxo := mkRow RVM None (V Lxy P66 M0F38 W0 0xBE) (EV Lxyz P66 M0F38 W0 0xBE (FV 4) Er).
Definition r_vfnmsub231pd_xxo := mkRow RVM None (V Lxy P66 M0F38 W1 0xBE) (EV Lxyz P66 M0F38 W1 0xBE (FV 8) Er).
Definition r_vfnmsub231ph_xxo := mkRow RVM None no_vex (EV Lxyz P66 MAP6 W0 0xBE (FV 2) Er).
Definition r_vfnmsub231nepbf16_xxo := mkRow RVM None no_vex (EV Lxyz NP MAP6 W0 0xBE (FV 2) NoRc).
Definition r_vfnmsub231ss_xxo := mkRow RVM None (V LIG P66 M0F38 W0 0xBF) (EV LIG P66 M0F38 W0 0xBF (TS 4) Er).
Definition r_vfnmsub231sd_xxo := mkRow RVM None (V LIG P66 M0F38 W1 0xBF) (EV LIG P66 M0F38 W1 0xBF (TS 8) Er).
Definition r_vfnmsub231sh_xxo := mkRow RVM None no_vex (EV LIG P66 MAP6 W0 0xBF (TS 2) Er).
Definition r_vgf2p8affineqb_xxoi := mkRow RVMI None (V Lxy P66 M0F3A W1 0xCE) (EV Lxyz P66 M0F3A W1 0xCE (FV 8) NoRc).
Definition r_vgf2p8affineinvqb_xxoi := mkRow RVMI None (V Lxy P66 M0F3A W1 0xCF) (EV Lxyz P66 M0F3A W1 0xCF (FV 8) NoRc).
Definition r_vgf2p8mulb_xxo := mkRow RVM None (V Lxy P66 M0F38 W0 0xCF) (EV Lxyz P66 M0F38 W0 0xCF FVM NoRc).
Definition r_vinsertps_xxoi := mkRow RVMI None (V Lx P66 M0F3A WIG 0x21) (EV Lx P66 M0F3A W0 0x21 (TS 4) NoRc).
Definition r_vlddqu_xa := mkRow RM None (V Lxy PF2 M0F WIG 0xF0) no_evex.
Definition r_vldmxcsr_a := mkRow M_ (Some 2) (V L_0 NP M0F WIG 0xAE) no_evex.
Definition r_vstmxcsr_a := mkRow M_ (Some 3) (V L_0 NP M0F WIG 0xAE) no_evex.
Definition r_vmaskmovdqu_xx := mkRow RM None (V Lx P66 M0F WIG 0xF7) no_evex.
Definition r_vmaskmovps_xxa := mkRow RVM None (V Lxy P66 M0F38 W0 0x2C) no_evex.
Definition r_vmaskmovpd_xxa := mkRow RVM None (V Lxy P66 M0F38 W0 0x2D) no_evex.
Definition r_vmaskmovps_axx := mkRow MVR None (V Lxy P66 M0F38 W0 0x2E) no_evex.
Definition r_vmaskmovpd_axx := mkRow MVR None (V Lxy P66 M0F38 W0 0x2F) no_evex.
Definition r_vpmaskmovd_xxa := mkRow RVM None (V Lxy P66 M0F38 W0 0x8C) no_evex.
Definition r_vpmaskmovq_xxa := mkRow RVM None (V Lxy P66 M0F38 W1 0x8C) no_evex.
Definition r_vpmaskmovd_axx := mkRow MVR None (V Lxy P66 M0F38 W0 0x8E) no_evex.
Definition r_vpmaskmovq_axx := mkRow MVR None (V Lxy P66 M0F38 W1 0x8E) no_evex.
Definition r_vmovhlps_xxo := mkRow RVM None (V Lx NP M0F WIG 0x12) (EV Lx NP M0F W0 0x12 FVM NoRc).
Definition r_vmovlhps_xxo := mkRow RVM None (V Lx NP M0F WIG 0x16) (EV Lx NP M0F W0 0x16 FVM NoRc).
Definition r_vmovhps_xoo := mkRow RVM None (V Lx NP M0F WIG 0x16) (EV Lx NP M0F W0 0x16 (TS 8) NoRc).
Definition r_vmovhpd_xoo := mkRow RVM None (V Lx P66 M0F WIG 0x16) (EV Lx P66 M0F W1 0x16 (TS 8) NoRc).
Definition r_vmovhps_ax := mkRow MR None (V Lx NP M0F WIG 0x17) (EV Lx NP M0F W0 0x17 (TS 8) NoRc).
Definition r_vmovhpd_ax := mkRow MR None (V Lx P66 M0F WIG 0x17) (EV Lx P66 M0F W1 0x17 (TS 8) NoRc).
Definition r_vmovlps_xoo := mkRow RVM None (V Lx NP M0F WIG 0x12) (EV Lx NP M0F W0 0x12 (TS 8) NoRc).
Definition r_vmovlpd_xoo := mkRow RVM None (V Lx P66 M0F WIG 0x12) (EV Lx P66 M0F W1 0x12 (TS 8) NoRc).
Definition r_vmovlps_ax := mkRow MR None (V Lx NP M0F WIG 0x13) (EV Lx NP M0F W0 0x13 (TS 8) NoRc).
Definition r_vmovlpd_ax := mkRow MR None (V Lx P66 M0F WIG 0x13) (EV Lx P66 M0F W1 0x13 (TS 8) NoRc).
Definition r_vmovmskps_rx := mkRow RM None (V Lxy NP M0F WIG 0x50) no_evex.
Definition r_vmovmskpd_rx := mkRow RM None (V Lxy P66 M0F WIG 0x50) no_evex.
Definition r_vmovq_xx := mkRow RM None (V Lx PF3 M0F WIG 0x7E) (EV Lx PF3 M0F W1 0x7E (TS 8) NoRc).
Definition r_vmovq_xq := mkRow RM None (V Lx P66 M0F W1 0x6E) (EV Lx P66 M0F W1 0x6E FVM NoRc).
Definition r_vmovq_qx := mkRow MR None (V Lx P66 M0F W1 0x7E) (EV Lx P66 M0F W1 0x7E FVM NoRc).
Definition r_vmovss_xa := mkRow RM None (V LIG PF3 M0F WIG 0x10) (EV LIG PF3 M0F W0 0x10 (TS 4) NoRc).
Definition r_vmovsd_xa := mkRow RM None (V LIG PF2 M0F WIG 0x10) (EV LIG PF2 M0F W1 0x10 (TS 8) NoRc).
Definition r_vmovss_ax := mkRow MR None (V LIG PF3 M0F WIG 0x11) (EV LIG PF3 M0F W0 0x11 (TS 4) NoRc).
Definition r_vmovsd_ax := mkRow MR None (V LIG PF2 M0F WIG 0x11) (EV LIG PF2 M0F W1 0x11 (TS 8) NoRc).
Definition r_vmovss_xxo := mkRow RVM None (V LIG PF3 M0F WIG 0x10) (EV LIG PF3 M0F W0 0x10 (TS 4) NoRc).
Definition r_vmovsd_xxo := mkRow RVM None (V LIG PF2 M0F WIG 0x10) (EV LIG PF2 M0F W1 0x10 (TS 8) NoRc).
Definition r_vpacksswb_xxo := mkRow RVM None (V Lxy P66 M0F WIG 0x63) (EV Lxyz P66 M0F WIG 0x63 FVM NoRc).
Definition r_vpackuswb_xxo := mkRow RVM None (V Lxy P66 M0F WIG 0x67) (EV Lxyz P66 M0F WIG 0x67 FVM NoRc).
Definition r_vpaddb_xxo := mkRow RVM None (V Lxy P66 M0F WIG 0xFC) (EV Lxyz P66 M0F WIG 0xFC FVM NoRc).
Definition r_vpaddw_xxo := mkRow RVM None (V Lxy P66 M0F WIG 0xFD) (EV Lxyz P66 M0F WIG 0xFD FVM NoRc).
Definition r_vpaddsb_xxo := mkRow RVM None (V Lxy P66 M0F WIG 0xEC) (EV Lxyz P66 M0F WIG 0xEC FVM NoRc).
Definition r_vpaddsw_xxo := mkRow RVM None (V Lxy P66 M0F WIG 0xED) (EV Lxyz P66 M0F WIG 0xED FVM NoRc).
Definition r_vpaddusb_xxo := mkRow RVM None (V Lxy P66 M0F WIG 0xDC) (EV Lxyz P66 M0F WIG 0xDC FVM NoRc).
Definition r_vpaddusw_xxo := mkRow RVM None (V Lxy P66 M0F WIG 0xDD) (EV Lxyz P66 M0F WIG 0xDD FVM NoRc).
Definition r_vpavgb_xxo := mkRow RVM None (V Lxy P66 M0F WIG 0xE0) (EV Lxyz P66 M0F WIG 0xE0 FVM NoRc).
Definition r_vpavgw_xxo := mkRow RVM None (V Lxy P66 M0F WIG 0xE3) (EV Lxyz P66 M0F WIG 0xE3 FVM NoRc).
Definition r_vpmaddubsw_xxo := mkRow RVM None (V Lxy P66 M0F38 WIG 0x04) (EV Lxyz P66 M0F38 WIG 0x04 FVM NoRc).
Definition r_vpmaddwd_xxo := mkRow RVM None (V Lxy P66 M0F WIG 0xF5) (EV Lxyz P66 M0F WIG 0xF5 FVM NoRc).
Definition r_vpmaxsb_xxo := mkRow RVM None (V Lxy P66 M0F38 WIG 0x3C) (EV Lxyz P66 M0F38 WIG 0x3C FVM NoRc).
Definition r_vpmaxsw_xxo := mkRow RVM None (V Lxy P66 M0F WIG 0xEE) (EV Lxyz P66 M0F WIG 0xEE FVM NoRc).
Definition r_vpmaxub_xxo := mkRow RVM None (V Lxy P66 M0F WIG 0xDE) (EV Lxyz P66 M0F WIG 0xDE FVM NoRc).
Definition r_vpmaxuw_xxo := mkRow RVM None (V Lxy P66 M0F38 WIG 0x3E) (EV Lxyz P66 M0F38 WIG 0x3E FVM NoRc).
Definition r_vpminsb_xxo := mkRow RVM None (V Lxy P66 M0F38 WIG 0x38) (EV Lxyz P66 M0F38 WIG 0x38 FVM NoRc).
Definition r_vpminsw_xxo := mkRow RVM None (V Lxy P66 M0F WIG 0xEA) (EV Lxyz P66 M0F WIG 0xEA FVM NoRc).
Definition r_vpminub_xxo := mkRow RVM None (V Lxy P66 M0F WIG 0xDA) (EV Lxyz P66 M0F WIG 0xDA FVM NoRc).
Definition r_vpminuw_xxo := mkRow RVM None (V Lxy P66 M0F38 WIG 0x3A) (EV Lxyz P66 M0F38 WIG 0x3A FVM NoRc).
Definition r_vpmulhrsw_xxo := mkRow RVM None (V Lxy P66 M0F38 WIG 0x0B) (EV Lxyz P66 M0F38 WIG 0x0B FVM NoRc).
Definition r_vpmulhuw_xxo := mkRow RVM None (V Lxy P66 M0F WIG 0xE4) (EV Lxyz P66 M0F WIG 0xE4 FVM NoRc).
Definition r_vpmulhw_xxo := mkRow RVM None (V Lxy P66 M0F WIG 0xE5) (EV Lxyz P66 M0F WIG 0xE5 FVM NoRc).
Definition r_vpmullw_xxo := mkRow RVM None (V Lxy P66 M0F WIG 0xD5) (EV Lxyz P66 M0F WIG 0xD5 FVM NoRc).
Definition r_vpsadbw_xxo := mkRow RVM None (V Lxy P66 M0F WIG 0xF6) (EV Lxyz P66 M0F WIG 0xF6 FVM NoRc).
Definition r_vpshufb_xxo := mkRow RVM None (V Lxy P66 M0F38 WIG 0x00) (EV Lxyz P66 M0F38 WIG 0x00 FVM NoRc).
Definition r_vpsubb_xxo := mkRow RVM None (V Lxy P66 M0F WIG 0xF8) (EV Lxyz P66 M0F WIG 0xF8 FVM NoRc).
Definition r_vpsubw_xxo := mkRow RVM None (V Lxy P66 M0F WIG 0xF9) (EV Lxyz P66 M0F WIG 0xF9 FVM NoRc).
Definition r_vpsubsb_xxo := mkRow RVM None (V Lxy P66 M0F WIG 0xE8) (EV Lxyz P66 M0F WIG 0xE8 FVM NoRc).
Definition r_vpsubsw_xxo := mkRow RVM None (V Lxy P66 M0F WIG 0xE9) (EV Lxyz P66 M0F WIG 0xE9 FVM NoRc).
Definition r_vpsubusb_xxo := mkRow RVM None (V Lxy P66 M0F WIG 0xD8) (EV Lxyz P66 M0F WIG 0xD8 FVM NoRc).
Definition r_vpsubusw_xxo := mkRow RVM None (V Lxy P66 M0F WIG 0xD9) (EV Lxyz P66 M0F WIG 0xD9 FVM NoRc).
Definition r_vpunpckhbw_xxo := mkRow RVM None (V Lxy P66 M0F WIG 0x68) (EV Lxyz P66 M0F WIG 0x68 FVM NoRc).
Definition r_vpunpckhwd_xxo := mkRow RVM None (V Lxy P66 M0F WIG 0x69) (EV Lxyz P66 M0F WIG 0x69 FVM NoRc).
Definition r_vpunpcklbw_xxo := mkRow RVM None (V Lxy P66 M0F WIG 0x60) (EV Lxyz P66 M0F WIG 0x60 FVM NoRc).
Definition r_vpunpcklwd_xxo := mkRow RVM None (V Lxy P66 M0F WIG 0x61) (EV Lxyz P66 M0F WIG 0x61 FVM NoRc).
Definition r_vpackssdw_xxo := mkRow RVM None (V Lxy P66 M0F WIG 0x6B) (EV Lxyz P66 M0F W0 0x6B (FV 4) NoRc).
Definition r_vpackusdw_xxo := mkRow RVM None (V Lxy P66 M0F38 WIG 0x2B) (EV Lxyz P66 M0F38 W0 0x2B (FV 4) NoRc).
Definition r_vpaddd_xxo := mkRow RVM None (V Lxy P66 M0F WIG 0xFE) (EV Lxyz P66 M0F W0 0xFE (FV 4) NoRc).
Definition r_vpaddq_xxo := mkRow RVM None (V Lxy P66 M0F WIG 0xD4) (EV Lxyz P66 M0F W1 0xD4 (FV 8) NoRc).
Definition r_vpmaxsd_xxo := mkRow RVM None (V Lxy P66 M0F38 WIG 0x3D) (EV Lxyz P66 M0F38 W0 0x3D (FV 4) NoRc).
Definition r_vpmaxud_xxo := mkRow RVM None (V Lxy P66 M0F38 WIG 0x3F) (EV Lxyz P66 M0F38 W0 0x3F (FV 4) NoRc).
Definition r_vpminsd_xxo := mkRow RVM None (V Lxy P66 M0F38 WIG 0x39) (EV Lxyz P66 M0F38 W0 0x39 (FV 4) NoRc).
Definition r_vpminud_xxo := mkRow RVM None (V Lxy P66 M0F38 WIG 0x3B) (EV Lxyz P66 M0F38 W0 0x3B (FV 4) NoRc).
Definition r_vpmuldq_xxo := mkRow RVM None (V Lxy P66 M0F38 WIG 0x28) (EV Lxyz P66 M0F38 W1 0x28 (FV 8) NoRc).
Definition r_vpmulld_xxo := mkRow RVM None (V Lxy P66 M0F38 WIG 0x40) (EV Lxyz P66 M0F38 W0 0x40 (FV 4) NoRc).
Definition r_vpmuludq_xxo := mkRow RVM None (V Lxy P66 M0F WIG 0xF4) (EV Lxyz P66 M0F W1 0xF4 (FV 8) NoRc).
Definition r_vpsubd_xxo := mkRow RVM None (V Lxy P66 M0F WIG 0xFA) (EV Lxyz P66 M0F W0 0xFA (FV 4) NoRc).
Definition r_vpsubq_xxo := mkRow RVM None (V Lxy P66 M0F WIG 0xFB) (EV Lxyz P66 M0F W1 0xFB (FV 8) NoRc).
Definition r_vpunpckhdq_xxo := mkRow RVM None (V Lxy P66 M0F WIG 0x6A) (EV Lxyz P66 M0F W0 0x6A (FV 4) NoRc).
Definition r_vpunpckhqdq_xxo := mkRow RVM None (V Lxy P66 M0F WIG 0x6D) (EV Lxyz P66 M0F W1 0x6D (FV 8) NoRc).
Definition r_vpunpckldq_xxo := mkRow RVM None (V Lxy P66 M0F WIG 0x62) (EV Lxyz P66 M0F W0 0x62 (FV 4) NoRc).
Definition r_vpunpcklqdq_xxo := mkRow RVM None (V Lxy P66 M0F WIG 0x6C) (EV Lxyz P66 M0F W1 0x6C (FV 8) NoRc).
Definition r_vpand_xxo := mkRow RVM None (V Lxy P66 M0F WIG 0xDB) no_evex.
Definition r_vpandn_xxo := mkRow RVM None (V Lxy P66 M0F WIG 0xDF) no_evex.
Definition r_vpor_xxo := mkRow RVM None (V Lxy P66 M0F WIG 0xEB) no_evex.
Definition r_vpxor_xxo := mkRow RVM None (V Lxy P66 M0F WIG 0xEF) no_evex.
Definition r_vpcmpeqb_xxo := mkRow RVM None (V Lxy P66 M0F WIG 0x74) no_evex.
Definition r_vpcmpeqw_xxo := mkRow RVM None (V Lxy P66 M0F WIG 0x75) no_evex.
Definition r_vpcmpeqd_xxo := mkRow RVM None (V Lxy P66 M0F WIG 0x76) no_evex.
Definition r_vpcmpeqq_xxo := mkRow RVM None (V Lxy P66 M0F38 WIG 0x29) no_evex.
Definition r_vpcmpgtb_xxo := mkRow RVM None (V Lxy P66 M0F WIG 0x64) no_evex.
Definition r_vpcmpgtw_xxo := mkRow RVM None (V Lxy P66 M0F WIG 0x65) no_evex.
Definition r_vpcmpgtd_xxo := mkRow RVM None (V Lxy P66 M0F WIG 0x66) no_evex.
Definition r_vpcmpgtq_xxo := mkRow RVM None (V Lxy P66 M0F38 WIG 0x37) no_evex.
Definition r_vphaddw_xxo := mkRow RVM None (V Lxy P66 M0F38 WIG 0x01) no_evex.
Definition r_vphaddd_xxo := mkRow RVM None (V Lxy P66 M0F38 WIG 0x02) no_evex.
Definition r_vphaddsw_xxo := mkRow RVM None (V Lxy P66 M0F38 WIG 0x03) no_evex.
Definition r_vphsubw_xxo := mkRow RVM None (V Lxy P66 M0F38 WIG 0x05) no_evex.
Definition r_vphsubd_xxo := mkRow RVM None (V Lxy P66 M0F38 WIG 0x06) no_evex.
Definition r_vphsubsw_xxo := mkRow RVM None (V Lxy P66 M0F38 WIG 0x07) no_evex.
Definition r_vpsignb_xxo := mkRow RVM None (V Lxy P66 M0F38 WIG 0x08) no_evex.
Definition r_vpsignw_xxo := mkRow RVM None (V Lxy P66 M0F38 WIG 0x09) no_evex.
Definition r_vpsignd_xxo := mkRow RVM None (V Lxy P66 M0F38 WIG 0x0A) no_evex.
Definition r_vpalignr_xxoi := mkRow RVMI None (V Lxy P66 M0F3A WIG 0x0F) (EV Lxyz P66 M0F3A WIG 0x0F FVM NoRc).
Definition r_vpblendd_xxoi := mkRow RVMI None (V Lxy P66 M0F3A W0 0x02) no_evex.
Definition r_vpblendw_xxoi := mkRow RVMI None (V Lxy P66 M0F3A WIG 0x0E) no_evex.
Definition r_vpclmulqdq_xxoi := mkRow RVMI None (V Lxy P66 M0F3A WIG 0x44) (EV Lxyz P66 M0F3A WIG 0x44 FVM NoRc).
Definition r_vpermd_yyo := mkRow RVM None (V Ly P66 M0F38 W0 0x36) (EV Lyz P66 M0F38 W0 0x36 (FV 4) NoRc).
Definition r_vpermps_yyo := mkRow RVM None (V Ly P66 M0F38 W0 0x16) (EV Lyz P66 M0F38 W0 0x16 (FV 4) NoRc).
Definition r_vpermq_yyo := mkRow RVM None no_vex (EV Lyz P66 M0F38 W1 0x36 (FV 8) NoRc).
Definition r_vpermpd_yyo := mkRow RVM None no_vex (EV Lyz P66 M0F38 W1 0x16 (FV 8) NoRc).
Definition r_vpermq_yoi := mkRow RMI None (V Ly P66 M0F3A W1 0x00) (EV Lyz P66 M0F3A W1 0x00 (FV 8) NoRc).
Definition r_vpermpd_yoi := mkRow RMI None (V Ly P66 M0F3A W1 0x01) (EV Lyz P66 M0F3A W1 0x01 (FV 8) NoRc).
Definition r_vpermilps_xxo := mkRow RVM None (V Lxy P66 M0F38 W0 0x0C) (EV Lxyz P66 M0F38 W0 0x0C (FV 4) NoRc).
Definition r_vpermilpd_xxo := mkRow RVM None (V Lxy P66 M0F38 W0 0x0D) (EV Lxyz P66 M0F38 W1 0x0D (FV 8) NoRc).
Definition r_vpermilps_xoi := mkRow RMI None (V Lxy P66 M0F3A W0 0x04) (EV Lxyz P66 M0F3A W0 0x04 (FV 4) NoRc).
Definition r_vpermilpd_xoi := mkRow RMI None (V Lxy P66 M0F3A W0 0x05) (EV Lxyz P66 M0F3A W1 0x05 (FV 8) NoRc).
Definition r_vpsllw_xoi := mkRow VMI (Some 6) (V Lxy P66 M0F WIG 0x71) (EV Lxyz P66 M0F WIG 0x71 FVM NoRc).
Definition r_vpslld_xoi := mkRow VMI (Some 6) (V Lxy P66 M0F WIG 0x72) (EV Lxyz P66 M0F W0 0x72 (FV 4) NoRc).
Definition r_vpsllq_xoi := mkRow VMI (Some 6) (V Lxy P66 M0F WIG 0x73) (EV Lxyz P66 M0F W1 0x73 (FV 8) NoRc).
Definition r_vpsraw_xoi := mkRow VMI (Some 4) (V Lxy P66 M0F WIG 0x71) (EV Lxyz P66 M0F WIG 0x71 FVM NoRc).
Definition r_vpsrad_xoi := mkRow VMI (Some 4) (V Lxy P66 M0F WIG 0x72) (EV Lxyz P66 M0F W0 0x72 (FV 4) NoRc).
Definition r_vpsrlw_xoi := mkRow VMI (Some 2) (V Lxy P66 M0F WIG 0x71) (EV Lxyz P66 M0F WIG 0x71 FVM NoRc).
Definition r_vpsrld_xoi := mkRow VMI (Some 2) (V Lxy P66 M0F WIG 0x72) (EV Lxyz P66 M0F W0 0x72 (FV 4) NoRc).
Definition r_vpsrlq_xoi := mkRow VMI (Some 2) (V Lxy P66 M0F WIG 0x73) (EV Lxyz P66 M0F W1 0x73 (FV 8) NoRc).
Definition r_vpslldq_xoi := mkRow VMI (Some 7) (V Lxy P66 M0F WIG 0x73) (EV Lxyz P66 M0F WIG 0x73 FVM NoRc).
Definition r_vpsrldq_xoi := mkRow VMI (Some 3) (V Lxy P66 M0F WIG 0x73) (EV Lxyz P66 M0F WIG 0x73 FVM NoRc).
Definition r_vpsraq_xoi := mkRow VMI (Some 4) no_vex (EV Lxyz P66 M0F W1 0x72 (FV 8) NoRc).
Definition r_vprold_xoi := mkRow VMI (Some 1) no_vex (EV Lxyz P66 M0F W0 0x72 (FV 4) NoRc).
Definition r_vprolq_xoi := mkRow VMI (Some 1) no_vex (EV Lxyz P66 M0F W1 0x72 (FV 8) NoRc).
Definition r_vprord_xoi := mkRow VMI (Some 0) no_vex (EV Lxyz P66 M0F W0 0x72 (FV 4) NoRc).
Definition r_vprorq_xoi := mkRow VMI (Some 0) no_vex (EV Lxyz P66 M0F W1 0x72 (FV 8) NoRc).
Definition r_vpsllw_xxo := mkRow RVM None (V Lxy P66 M0F WIG 0xF1) (EV Lxyz P66 M0F WIG 0xF1 (TS 16) NoRc).
Definition r_vpslld_xxo := mkRow RVM None (V Lxy P66 M0F WIG 0xF2) (EV Lxyz P66 M0F W0 0xF2 (TS 16) NoRc).
Definition r_vpsllq_xxo := mkRow RVM None (V Lxy P66 M0F WIG 0xF3) (EV Lxyz P66 M0F W1 0xF3 (TS 16) NoRc).
Definition r_vpsraw_xxo := mkRow RVM None (V Lxy P66 M0F WIG 0xE1) (EV Lxyz P66 M0F WIG 0xE1 (TS 16) NoRc).
Definition r_vpsrad_xxo := mkRow RVM None (V Lxy P66 M0F WIG 0xE2) (EV Lxyz P66 M0F W0 0xE2 (TS 16) NoRc).
Definition r_vpsrlw_xxo := mkRow RVM None (V Lxy P66 M0F WIG 0xD1) (EV Lxyz P66 M0F WIG 0xD1 (TS 16) NoRc).
Definition r_vpsrld_xxo := mkRow RVM None (V Lxy P66 M0F WIG 0xD2) (EV Lxyz P66 M0F W0 0xD2 (TS 16) NoRc).
Definition r_vpsrlq_xxo := mkRow RVM None (V Lxy P66 M0F WIG 0xD3) (EV Lxyz P66 M0F W1 0xD3 (TS 16) NoRc).
Definition r_vpsraq_xxo := mkRow RVM None no_vex (EV Lxyz P66 M0F W1 0xE2 (TS 16) NoRc).
Definition r_vpsllvd_xxo := mkRow RVM None (V Lxy P66 M0F38 W0 0x47) (EV Lxyz P66 M0F38 W0 0x47 (FV 4) NoRc).
Definition r_vpsllvq_xxo := mkRow RVM None (V Lxy P66 M0F38 W1 0x47) (EV Lxyz P66 M0F38 W1 0x47 (FV 8) NoRc).
Definition r_vpsrlvd_xxo := mkRow RVM None (V Lxy P66 M0F38 W0 0x45) (EV Lxyz P66 M0F38 W0 0x45 (FV 4) NoRc).
Definition r_vpsrlvq_xxo := mkRow RVM None (V Lxy P66 M0F38 W1 0x45) (EV Lxyz P66 M0F38 W1 0x45 (FV 8) NoRc).
Definition r_vpsravd_xxo := mkRow RVM None (V Lxy P66 M0F38 W0 0x46) (EV Lxyz P66 M0F38 W0 0x46 (FV 4) NoRc).
Definition r_vpsravq_xxo := mkRow RVM None no_vex (EV Lxyz P66 M0F38 W1 0x46 (FV 8) NoRc).
Definition r_vpsllvw_xxo := mkRow RVM None no_vex (EV Lxyz P66 M0F38 W1 0x12 FVM NoRc).
Definition r_vpsravw_xxo := mkRow RVM None no_vex (EV Lxyz P66 M0F38 W1 0x11 FVM NoRc).
Definition r_vpsrlvw_xxo := mkRow RVM None no_vex (EV Lxyz P66 M0F38 W1 0x10 FVM NoRc).
Definition r_vrcpss_xxo := mkRow RVM None (V LIG PF3 M0F WIG 0x53) no_evex.
Definition r_vrsqrtss_xxo := mkRow RVM None (V LIG PF3 M0F WIG 0x52) no_evex.
Definition r_vroundss_xxoi := mkRow RVMI None (V LIG P66 M0F3A WIG 0x0A) no_evex.
Definition r_vroundsd_xxoi := mkRow RVMI None (V LIG P66 M0F3A WIG 0x0B) no_evex.
Definition r_vshufps_xxoi := mkRow RVMI None (V Lxy NP M0F WIG 0xC6) (EV Lxyz NP M0F W0 0xC6 (FV 4) NoRc).
Definition r_vshufpd_xxoi := mkRow RVMI None (V Lxy P66 M0F WIG 0xC6) (EV Lxyz P66 M0F W1 0xC6 (FV 8) NoRc).
Definition r_vsm3msg1_xxo := mkRow RVM None (V Lx NP M0F38 W0 0xDA) no_evex.
Definition r_vsm3msg2_xxo := mkRow RVM None (V Lx P66 M0F38 W0 0xDA) no_evex.
Definition r_vsm3rnds2_xxoi := mkRow RVMI None (V Lx P66 M0F3A W0 0xDE) no_evex.
Definition r_vsm4key4_xxo := mkRow RVM None (V Lxy PF3 M0F38 W0 0xDA) (EV Lxyz PF3 M0F38 W0 0xDA FVM NoRc).
Definition r_vsm4rnds4_xxo := mkRow RVM None (V Lxy PF2 M0F38 W0 0xDA) (EV Lxyz PF2 M0F38 W0 0xDA FVM NoRc).
Definition r_vsqrtss_xxo := mkRow RVM None (V LIG PF3 M0F WIG 0x51) (EV LIG PF3 M0F W0 0x51 (TS 4) Er).
Definition r_vsqrtsd_xxo := mkRow RVM None (V LIG PF2 M0F WIG 0x51) (EV LIG PF2 M0F W1 0x51 (TS 8) Er).
Definition r_vsqrtsh_xxo := mkRow RVM None no_vex (EV LIG PF3 MAP5 W0 0x51 (TS 2) Er).
Definition r_vunpcklps_xxo := mkRow RVM None (V Lxy NP M0F WIG 0x14) (EV Lxyz NP M0F W0 0x14 (FV 4) NoRc).
Definition r_vunpcklpd_xxo := mkRow RVM None (V Lxy P66 M0F WIG 0x14) (EV Lxyz P66 M0F W1 0x14 (FV 8) NoRc).
Definition r_vunpckhps_xxo := mkRow RVM None (V Lxy NP M0F WIG 0x15) (EV Lxyz NP M0F W0 0x15 (FV 4) NoRc).
Definition r_vunpckhpd_xxo := mkRow RVM None (V Lxy P66 M0F WIG 0x15) (EV Lxyz P66 M0F W1 0x15 (FV 8) NoRc).
Definition r_v4fmaddps_zza := mkRow RVM None no_vex (EV Lz PF2 M0F38 W0 0x9A (TS 16) NoRc).
Definition r_v4fnmaddps_zza := mkRow RVM None no_vex (EV Lz PF2 M0F38 W0 0xAA (TS 16) NoRc).
Definition r_v4fmaddss_xxa := mkRow RVM None no_vex (EV LIG PF2 M0F38 W0 0x9B (TS 16) NoRc).
Definition r_v4fnmaddss_xxa := mkRow RVM None no_vex (EV LIG PF2 M0F38 W0 0xAB (TS 16) NoRc).
Definition r_vp4dpwssd_zza := mkRow RVM None no_vex (EV Lz PF2 M0F38 W0 0x52 (TS 16) NoRc).
Definition r_vp4dpwssds_zza := mkRow RVM None no_vex (EV Lz PF2 M0F38 W0 0x53 (TS 16) NoRc).
Definition r_valignd_xxoi := mkRow RVMI None no_vex (EV Lxyz P66 M0F3A W0 0x03 (FV 4) NoRc).
Definition r_valignq_xxoi := mkRow RVMI None no_vex (EV Lxyz P66 M0F3A W1 0x03 (FV 8) NoRc).
Definition r_vblendmps_xxo := mkRow RVM None no_vex (EV Lxyz P66 M0F38 W0 0x65 (FV 4) NoRc).
Definition r_vblendmpd_xxo := mkRow RVM None no_vex (EV Lxyz P66 M0F38 W1 0x65 (FV 8) NoRc).
Definition r_vpblendmb_xxo := mkRow RVM None no_vex (EV Lxyz P66 M0F38 W0 0x66 FVM NoRc).
Definition r_vpblendmw_xxo := mkRow RVM None no_vex (EV Lxyz P66 M0F38 W1 0x66 FVM NoRc).
Definition r_vpblendmd_xxo := mkRow RVM None no_vex (EV Lxyz P66 M0F38 W0 0x64 (FV 4) NoRc).
Definition r_vpblendmq_xxo := mkRow RVM None no_vex (EV Lxyz P66 M0F38 W1 0x64 (FV 8) NoRc).
Definition r_vcvt2ps2phx_xxo := mkRow RVM None no_vex (EV Lxyz P66 M0F38 W0 0x67 (FV 4) Er).
Definition r_vcvtne2ph2bf8_xxo := mkRow RVM None no_vex (EV Lxyz PF2 M0F38 W0 0x74 (FV 2) NoRc).
Definition r_vcvtne2ph2bf8s_xxo := mkRow RVM None no_vex (EV Lxyz PF2 MAP5 W0 0x74 (FV 2) NoRc).
Definition r_vcvtne2ph2hf8_xxo := mkRow RVM None no_vex (EV Lxyz PF2 MAP5 W0 0x18 (FV 2) NoRc).
Definition r_vcvtne2ph2hf8s_xxo := mkRow RVM None no_vex (EV Lxyz PF2 MAP5 W0 0x1B (FV 2) NoRc).
Definition r_vcvtbiasph2bf8_xxo := mkRow RVM None no_vex (EV Lxyz NP M0F38 W0 0x74 (FV 2) NoRc).
Definition r_vcvtbiasph2bf8s_xxo := mkRow RVM None no_vex (EV Lxyz NP MAP5 W0 0x74 (FV 2) NoRc).
Definition r_vcvtbiasph2hf8_xxo := mkRow RVM None no_vex (EV Lxyz NP MAP5 W0 0x18 (FV 2) NoRc).
Definition r_vcvtbiasph2hf8s_xxo := mkRow RVM None no_vex (EV Lxyz NP MAP5 W0 0x1B (FV 2) NoRc).
Definition r_vcvtneph2bf8_xo := mkRow RM None no_vex (EV Lxyz PF3 M0F38 W0 0x74 (FV 2) NoRc).
Definition r_vcvtneph2bf8s_xo := mkRow RM None no_vex (EV Lxyz PF3 MAP5 W0 0x74 (FV 2) NoRc).
Definition r_vcvtneph2hf8_xo := mkRow RM None no_vex (EV Lxyz PF3 MAP5 W0 0x18 (FV 2) NoRc).
Definition r_vcvtneph2hf8s_xo := mkRow RM None no_vex (EV Lxyz PF3 MAP5 W0 0x1B (FV 2) NoRc).
Definition r_vcvtne2ps2bf16_xxo := mkRow RVM None no_vex (EV Lxyz PF2 M0F38 W0 0x72 (FV 4) NoRc).
Definition r_vcvtneps2bf16_xop := mkRow RM None (V Lxy PF3 M0F38 W0 0x72) (EV Lxyz PF3 M0F38 W0 0x72 (FV 4) NoRc).
Definition r_vcvtsd2sh_xxo := mkRow RVM None no_vex (EV LIG PF2 MAP5 W1 0x5A (TS 8) Er).
Definition r_vcvtsh2sd_xxo := mkRow RVM None no_vex (EV LIG PF3 MAP5 W0 0x5A (TS 2) Sae).
Definition r_vcvtsh2ss_xxo := mkRow RVM None no_vex (EV LIG NP MAP6 W0 0x13 (TS 2) Sae).
Definition r_vcvtss2sh_xxo := mkRow RVM None no_vex (EV LIG NP MAP5 W0 0x1D (TS 4) Er).
Definition r_vdbpsadbw_xxoi := mkRow RVMI None no_vex (EV Lxyz P66 M0F3A W0 0x42 FVM NoRc).
Definition r_vdpbf16ps_xxo := mkRow RVM None no_vex (EV Lxyz PF3 M0F38 W0 0x52 (FV 4) NoRc).
Definition r_vdpphps_xxo := mkRow RVM None no_vex (EV Lxyz NP M0F38 W0 0x52 (FV 4) NoRc).
Definition r_vfcmaddcph_xxo := mkRow RVM None no_vex (EV Lxyz PF2 MAP6 W0 0x56 (FV 4) Er).
Definition r_vfcmaddcsh_xxo := mkRow RVM None no_vex (EV LIG PF2 MAP6 W0 0x57 (TS 4) Er).
Definition r_vfmaddcph_xxo := mkRow RVM None no_vex (EV Lxyz PF3 MAP6 W0 0x56 (FV 4) Er).
Definition r_vfmaddcsh_xxo := mkRow RVM None no_vex (EV LIG PF3 MAP6 W0 0x57 (TS 4) Er).
Definition r_vfcmulcph_xxo := mkRow RVM None no_vex (EV Lxyz PF2 MAP6 W0 0xD6 (FV 4) Er).
Definition r_vfcmulcsh_xxo := mkRow RVM None no_vex (EV LIG PF2 MAP6 W0 0xD7 (TS 4) Er).
Definition r_vfmulcph_xxo := mkRow RVM None no_vex (EV Lxyz PF3 MAP6 W0 0xD6 (FV 4) Er).
Definition r_vfmulcsh_xxo := mkRow RVM None no_vex (EV LIG PF3 MAP6 W0 0xD7 (TS 4) Er).
Definition r_vfixupimmps_xxoi := mkRow RVMI None no_vex (EV Lxyz P66 M0F3A W0 0x54 (FV 4) Sae).
Definition r_vfixupimmpd_xxoi := mkRow RVMI None no_vex (EV Lxyz P66 M0F3A W1 0x54 (FV 8) Sae).
Definition r_vfixupimmss_xxoi := mkRow RVMI None no_vex (EV LIG P66 M0F3A W0 0x55 (TS 4) Sae).
Definition r_vfixupimmsd_xxoi := mkRow RVMI None no_vex (EV LIG P66 M0F3A W1 0x55 (TS 8) Sae).
Definition r_vgetexpps_xo := mkRow RM None no_vex (EV Lxyz P66 M0F38 W0 0x42 (FV 4) Sae).
Definition r_vgetexppd_xo := mkRow RM None no_vex (EV Lxyz P66 M0F38 W1 0x42 (FV 8) Sae).
Definition r_vgetexpss_xxo := mkRow RVM None no_vex (EV LIG P66 M0F38 W0 0x43 (TS 4) Sae).
Definition r_vgetexpsd_xxo := mkRow RVM None no_vex (EV LIG P66 M0F38 W1 0x43 (TS 8) Sae).
Definition r_vgetexpph_xo := mkRow RM None no_vex (EV Lxyz P66 MAP6 W0 0x42 (FV 2) Sae).
Definition r_vgetexpsh_xxo := mkRow RVM None no_vex (EV LIG P66 MAP6 W0 0x43 (TS 2) Sae).
Definition r_vgetexppbf16_xo := mkRow RM None no_vex (EV Lxyz NP MAP6 W0 0x42 (FV 2) NoRc).
Definition r_vgetmantps_xoi := mkRow RMI None no_vex (EV Lxyz P66 M0F3A W0 0x26 (FV 4) Sae).
Definition r_vgetmantpd_xoi := mkRow RMI None no_vex (EV Lxyz P66 M0F3A W1 0x26 (FV 8) Sae).
Definition r_vgetmantss_xxoi := mkRow RVMI None no_vex (EV LIG P66 M0F3A W0 0x27 (TS 4) Sae).
Definition r_vgetmantsd_xxoi := mkRow RVMI None no_vex (EV LIG P66 M0F3A W1 0x27 (TS 8) Sae).
Definition r_vgetmantph_xoi := mkRow RMI None no_vex (EV Lxyz NP M0F3A W0 0x26 (FV 2) Sae).
Definition r_vgetmantsh_xxoi := mkRow RVMI None no_vex (EV LIG NP M0F3A W0 0x27 (TS 2) Sae).
Definition r_vgetmantpbf16_xoi := mkRow RMI None no_vex (EV Lxyz PF2 M0F3A W0 0x26 (FV 2) NoRc).
Definition r_vminmaxps_xxoi := mkRow RVMI None no_vex (EV Lxyz P66 M0F3A W0 0x52 (FV 4) Sae).
Definition r_vminmaxpd_xxoi := mkRow RVMI None no_vex (EV Lxyz P66 M0F3A W1 0x52 (FV 8) Sae).
Definition r_vminmaxss_xxoi := mkRow RVMI None no_vex (EV LIG P66 M0F3A W0 0x53 (TS 4) Sae).
Definition r_vminmaxsd_xxoi := mkRow RVMI None no_vex (EV LIG P66 M0F3A W1 0x53 (TS 8) Sae).
Definition r_vminmaxph_xxoi := mkRow RVMI None no_vex (EV Lxyz NP M0F3A W0 0x52 (FV 2) Sae).
Definition r_vminmaxsh_xxoi := mkRow RVMI None no_vex (EV LIG NP M0F3A W0 0x53 (TS 2) Sae).
Definition r_vminmaxnepbf16_xxoi := mkRow RVMI None no_vex (EV Lxyz PF2 M0F3A W0 0x52 (FV 2) NoRc).
Definition r_vmovsh_xa := mkRow RM None no_vex (EV LIG PF3 MAP5 W0 0x10 (TS 2) NoRc).
Definition r_vmovsh_ax := mkRow MR None no_vex (EV LIG PF3 MAP5 W0 0x11 (TS 2) NoRc).
Definition r_vmovsh_xxx := mkRow RVM None no_vex (EV LIG PF3 MAP5 W0 0x10 (TS 2) NoRc).
Definition r_vpandd_xxo := mkRow RVM None no_vex (EV Lxyz P66 M0F W0 0xDB (FV 4) NoRc).
Definition r_vpandq_xxo := mkRow RVM None no_vex (EV Lxyz P66 M0F W1 0xDB (FV 8) NoRc).
Definition r_vpandnd_xxo := mkRow RVM None no_vex (EV Lxyz P66 M0F W0 0xDF (FV 4) NoRc).
Definition r_vpandnq_xxo := mkRow RVM None no_vex (EV Lxyz P66 M0F W1 0xDF (FV 8) NoRc).
Definition r_vpord_xxo := mkRow RVM None no_vex (EV Lxyz P66 M0F W0 0xEB (FV 4) NoRc).
Definition r_vporq_xxo := mkRow RVM None no_vex (EV Lxyz P66 M0F W1 0xEB (FV 8) NoRc).
Definition r_vpxord_xxo := mkRow RVM None no_vex (EV Lxyz P66 M0F W0 0xEF (FV 4) NoRc).
Definition r_vpxorq_xxo := mkRow RVM None no_vex (EV Lxyz P66 M0F W1 0xEF (FV 8) NoRc).
Definition r_vpermb_xxo := mkRow RVM None no_vex (EV Lxyz P66 M0F38 W0 0x8D FVM NoRc).
Definition r_vpermw_xxo := mkRow RVM None no_vex (EV Lxyz P66 M0F38 W1 0x8D FVM NoRc).
Definition r_vpermi2b_xxo := mkRow RVM None no_vex (EV Lxyz P66 M0F38 W0 0x75 FVM NoRc).
Definition r_vpermi2w_xxo := mkRow RVM None no_vex (EV Lxyz P66 M0F38 W1 0x75 FVM NoRc).
Definition r_vpermi2d_xxo := mkRow RVM None no_vex (EV Lxyz P66 M0F38 W0 0x76 (FV 4) NoRc).
Definition r_vpermi2q_xxo := mkRow RVM None no_vex (EV Lxyz P66 M0F38 W1 0x76 (FV 8) NoRc).
Definition r_vpermi2ps_xxo := mkRow RVM None no_vex (EV Lxyz P66 M0F38 W0 0x77 (FV 4) NoRc).
Definition r_vpermi2pd_xxo := mkRow RVM None no_vex (EV Lxyz P66 M0F38 W1 0x77 (FV 8) NoRc).
Definition r_vpermt2b_xxo := mkRow RVM None no_vex (EV Lxyz P66 M0F38 W0 0x7D FVM NoRc).
Definition r_vpermt2w_xxo := mkRow RVM None no_vex (EV Lxyz P66 M0F38 W1 0x7D FVM NoRc).
Definition r_vpermt2d_xxo := mkRow RVM None no_vex (EV Lxyz P66 M0F38 W0 0x7E (FV 4) NoRc).
Definition r_vpermt2q_xxo := mkRow RVM None no_vex (EV Lxyz P66 M0F38 W1 0x7E (FV 8) NoRc).
Definition r_vpermt2ps_xxo := mkRow RVM None no_vex (EV Lxyz P66 M0F38 W0 0x7F (FV 4) NoRc).
Definition r_vpermt2pd_xxo := mkRow RVM None no_vex (EV Lxyz P66 M0F38 W1 0x7F (FV 8) NoRc).
Definition r_vpmadd52luq_xxo := mkRow RVM None (V Lxy P66 M0F38 W1 0xB4) (EV Lxyz P66 M0F38 W1 0xB4 (FV 8) NoRc).
Definition r_vpmadd52huq_xxo := mkRow RVM None (V Lxy P66 M0F38 W1 0xB5) (EV Lxyz P66 M0F38 W1 0xB5 (FV 8) NoRc).
Definition r_vpmaxsq_xxo := mkRow RVM None no_vex (EV Lxyz P66 M0F38 W1 0x3D (FV 8) NoRc).
Definition r_vpmaxuq_xxo := mkRow RVM None no_vex (EV Lxyz P66 M0F38 W1 0x3F (FV 8) NoRc).
Definition r_vpminsq_xxo := mkRow RVM None no_vex (EV Lxyz P66 M0F38 W1 0x39 (FV 8) NoRc).
Definition r_vpminuq_xxo := mkRow RVM None no_vex (EV Lxyz P66 M0F38 W1 0x3B (FV 8) NoRc).
Definition r_vpmullq_xxo := mkRow RVM None no_vex (EV Lxyz P66 M0F38 W1 0x40 (FV 8) NoRc).
Definition r_vpmultishiftqb_xxo := mkRow RVM None no_vex (EV Lxyz P66 M0F38 W1 0x83 (FV 8) NoRc).
Definition r_vprolvd_xxo := mkRow RVM None no_vex (EV Lxyz P66 M0F38 W0 0x15 (FV 4) NoRc).
Definition r_vprolvq_xxo := mkRow RVM None no_vex (EV Lxyz P66 M0F38 W1 0x15 (FV 8) NoRc).
Definition r_vprorvd_xxo := mkRow RVM None no_vex (EV Lxyz P66 M0F38 W0 0x14 (FV 4) NoRc).
Definition r_vprorvq_xxo := mkRow RVM None no_vex (EV Lxyz P66 M0F38 W1 0x14 (FV 8) NoRc).
Definition r_vpshldd_xxoi := mkRow RVMI None no_vex (EV Lxyz P66 M0F3A W0 0x71 (FV 4) NoRc).
Definition r_vpshldq_xxoi := mkRow RVMI None no_vex (EV Lxyz P66 M0F3A W1 0x71 (FV 8) NoRc).
Definition r_vpshldw_xxoi := mkRow RVMI None no_vex (EV Lxyz P66 M0F3A W1 0x70 FVM NoRc).
Definition r_vpshrdd_xxoi := mkRow RVMI None no_vex (EV Lxyz P66 M0F3A W0 0x73 (FV 4) NoRc).
Definition r_vpshrdq_xxoi := mkRow RVMI None no_vex (EV Lxyz P66 M0F3A W1 0x73 (FV 8) NoRc).
Definition r_vpshrdw_xxoi := mkRow RVMI None no_vex (EV Lxyz P66 M0F3A W1 0x72 FVM NoRc).
Definition r_vpshldvd_xxo := mkRow RVM None no_vex (EV Lxyz P66 M0F38 W0 0x71 (FV 4) NoRc).
Definition r_vpshldvq_xxo := mkRow RVM None no_vex (EV Lxyz P66 M0F38 W1 0x71 (FV 8) NoRc).
Definition r_vpshldvw_xxo := mkRow RVM None no_vex (EV Lxyz P66 M0F38 W1 0x70 FVM NoRc).
Definition r_vpshrdvd_xxo := mkRow RVM None no_vex (EV Lxyz P66 M0F38 W0 0x73 (FV 4) NoRc).
Definition r_vpshrdvq_xxo := mkRow RVM None no_vex (EV Lxyz P66 M0F38 W1 0x73 (FV 8) NoRc).
Definition r_vpshrdvw_xxo := mkRow RVM None no_vex (EV Lxyz P66 M0F38 W1 0x72 FVM NoRc).
Definition r_vpternlogd_xxoi := mkRow RVMI None no_vex (EV Lxyz P66 M0F3A W0 0x25 (FV 4) NoRc).
Definition r_vpternlogq_xxoi := mkRow RVMI None no_vex (EV Lxyz P66 M0F3A W1 0x25 (FV 8) NoRc).
Definition r_vrangeps_xxoi := mkRow RVMI None no_vex (EV Lxyz P66 M0F3A W0 0x50 (FV 4) Sae).
Definition r_vrangepd_xxoi := mkRow RVMI None no_vex (EV Lxyz P66 M0F3A W1 0x50 (FV 8) Sae).
Definition r_vrangess_xxoi := mkRow RVMI None no_vex (EV LIG P66 M0F3A W0 0x51 (TS 4) Sae).
Definition r_vrangesd_xxoi := mkRow RVMI None no_vex (EV LIG P66 M0F3A W1 0x51 (TS 8) Sae).
Definition r_vrcp14ss_xxo := mkRow RVM None no_vex (EV LIG P66 M0F38 W0 0x4D (TS 4) NoRc).
Definition r_vrcp14sd_xxo := mkRow RVM None no_vex (EV LIG P66 M0F38 W1 0x4D (TS 8) NoRc).
Definition r_vrcp28ss_xxo := mkRow RVM None no_vex (EV LIG P66 M0F38 W0 0xCB (TS 4) Sae).
Definition r_vrcp28sd_xxo := mkRow RVM None no_vex (EV LIG P66 M0F38 W1 0xCB (TS 8) Sae).
Definition r_vrcpsh_xxo := mkRow RVM None no_vex (EV LIG P66 MAP6 W0 0x4D (TS 2) NoRc).
Definition r_vrsqrt14ss_xxo := mkRow RVM None no_vex (EV LIG P66 M0F38 W0 0x4F (TS 4) NoRc).
Definition r_vrsqrt14sd_xxo := mkRow RVM None no_vex (EV LIG P66 M0F38 W1 0x4F (TS 8) NoRc).
Definition r_vrsqrt28ss_xxo := mkRow RVM None no_vex (EV LIG P66 M0F38 W0 0xCD (TS 4) Sae).
Definition r_vrsqrt28sd_xxo := mkRow RVM None no_vex (EV LIG P66 M0F38 W1 0xCD (TS 8) Sae).
Definition r_vrsqrtsh_xxo := mkRow RVM None no_vex (EV LIG P66 MAP6 W0 0x4F (TS 2) NoRc).
Definition r_vreducess_xxoi := mkRow RVMI None no_vex (EV LIG P66 M0F3A W0 0x57 (TS 4) Sae).
Definition r_vreducesd_xxoi := mkRow RVMI None no_vex (EV LIG P66 M0F3A W1 0x57 (TS 8) Sae).
Definition r_vreducesh_xxoi := mkRow RVMI None no_vex (EV LIG NP M0F3A W0 0x57 (TS 2) Sae).
Definition r_vrndscalesd_xxoi := mkRow RVMI None no_vex (EV LIG P66 M0F3A W1 0x0B (TS 8) Sae).
Definition r_vrndscaless_xxoi := mkRow RVMI None no_vex (EV LIG P66 M0F3A W0 0x0A (TS 4) Sae).
Definition r_vrndscalesh_xxoi := mkRow RVMI None no_vex (EV LIG NP M0F3A W0 0x0A (TS 2) Sae).
Definition r_vscalefps_xxo := mkRow RVM None no_vex (EV Lxyz P66 M0F38 W0 0x2C (FV 4) Er).
Definition r_vscalefpd_xxo := mkRow RVM None no_vex (EV Lxyz P66 M0F38 W1 0x2C (FV 8) Er).
Definition r_vscalefss_xxo := mkRow RVM None no_vex (EV LIG P66 M0F38 W0 0x2D (TS 4) Er).
Definition r_vscalefsd_xxo := mkRow RVM None no_vex (EV LIG P66 M0F38 W1 0x2D (TS 8) Er).
Definition r_vscalefph_xxo := mkRow RVM None no_vex (EV Lxyz P66 MAP6 W0 0x2C (FV 2) Er).
Definition r_vscalefsh_xxo := mkRow RVM None no_vex (EV LIG P66 MAP6 W0 0x2D (TS 2) Er).
Definition r_vscalefpbf16_xxo := mkRow RVM None no_vex (EV Lxyz NP MAP6 W0 0x2C (FV 2) NoRc).
Definition r_vshuff32x4_yyoi := mkRow RVMI None no_vex (EV Lyz P66 M0F3A W0 0x23 (FV 4) NoRc).
Definition r_vshuff64x2_yyoi := mkRow RVMI None no_vex (EV Lyz P66 M0F3A W1 0x23 (FV 8) NoRc).
Definition r_vshufi32x4_yyoi := mkRow RVMI None no_vex (EV Lyz P66 M0F3A W0 0x43 (FV 4) NoRc).
Definition r_vshufi64x2_yyoi := mkRow RVMI None no_vex (EV Lyz P66 M0F3A W1 0x43 (FV 8) NoRc).
Definition r_vaesimc_xo := mkRow RM None (V Lx P66 M0F38 WIG 0xDB) no_evex.
Definition r_vaeskeygenassist_xoi := mkRow RMI None (V Lx P66 M0F3A WIG 0xDF) no_evex.
Definition r_vbroadcastf128_ya := mkRow RM None (V Ly P66 M0F38 W0 0x1A) no_evex.
Definition r_vbroadcasti128_ya := mkRow RM None (V Ly P66 M0F38 W0 0x5A) no_evex.
Definition r_vbroadcastsd_yo := mkRow RM None (V Ly P66 M0F38 W0 0x19) (EV Lyz P66 M0F38 W1 0x19 (TS 8) NoRc).
Definition r_vbroadcastss_xo := mkRow RM None (V Lxy P66 M0F38 W0 0x18) (EV Lxyz P66 M0F38 W0 0x18 (TS 4) NoRc).
Definition r_vucomiss_xo := mkRow RM None (V LIG NP M0F WIG 0x2E) (EV LIG NP M0F W0 0x2E (TS 4) Sae).
Definition r_vucomisd_xo := mkRow RM None (V LIG P66 M0F WIG 0x2E) (EV LIG P66 M0F W1 0x2E (TS 8) Sae).
Definition r_vucomish_xo := mkRow RM None no_vex (EV LIG NP MAP5 W0 0x2E (TS 2) Sae).
Definition r_vcomiss_xo := mkRow RM None (V LIG NP M0F WIG 0x2F) (EV LIG NP M0F W0 0x2F (TS 4) Sae).
Definition r_vcomisd_xo := mkRow RM None (V LIG P66 M0F WIG 0x2F) (EV LIG P66 M0F W1 0x2F (TS 8) Sae).
Definition r_vcomish_xo := mkRow RM None no_vex (EV LIG NP MAP5 W0 0x2F (TS 2) Sae).
Definition r_vucomxss_xo := mkRow RM None no_vex (EV LIG PF3 M0F W0 0x2E (TS 4) Sae).
Definition r_vucomxsd_xo := mkRow RM None no_vex (EV LIG PF2 M0F W1 0x2E (TS 8) Sae).
Definition r_vucomxsh_xo := mkRow RM None no_vex (EV LIG PF3 MAP5 W0 0x2E (TS 2) Sae).
Definition r_vcomxss_xo := mkRow RM None no_vex (EV LIG PF3 M0F W0 0x2F (TS 4) Sae).
Definition r_vcomxsd_xo := mkRow RM None no_vex (EV LIG PF2 M0F W1 0x2F (TS 8) Sae).
Definition r_vcomxsh_xo := mkRow RM None no_vex (EV LIG PF3 MAP5 W0 0x2F (TS 2) Sae).
Definition r_vcomsbf16_xo := mkRow RM None no_vex (EV LIG P66 MAP5 W0 0x2F (TS 2) NoRc).
Definition r_vcvtdq2ps_xo := mkRow RM None (V Lxy NP M0F WIG 0x5B) (EV Lxyz NP M0F W0 0x5B (FV 4) Er).
Definition r_vcvtps2dq_xo := mkRow RM None (V Lxy P66 M0F WIG 0x5B) (EV Lxyz P66 M0F W0 0x5B (FV 4) Er).
Definition r_vcvttps2dq_xo := mkRow RM None (V Lxy PF3 M0F WIG 0x5B) (EV Lxyz PF3 M0F W0 0x5B (FV 4) Sae).
Definition r_vmovaps_xo := mkRow RM None (V Lxy NP M0F WIG 0x28) (EV Lxyz NP M0F W0 0x28 FVM NoRc).
Definition r_vmovaps_ax := mkRow MR None (V Lxy NP M0F WIG 0x29) (EV Lxyz NP M0F W0 0x29 FVM NoRc).
Definition r_vmovapd_xo := mkRow RM None (V Lxy P66 M0F WIG 0x28) (EV Lxyz P66 M0F W1 0x28 FVM NoRc).
Definition r_vmovapd_ax := mkRow MR None (V Lxy P66 M0F WIG 0x29) (EV Lxyz P66 M0F W1 0x29 FVM NoRc).
Definition r_vmovups_xo := mkRow RM None (V Lxy NP M0F WIG 0x10) (EV Lxyz NP M0F W0 0x10 FVM NoRc).
Definition r_vmovups_ax := mkRow MR None (V Lxy NP M0F WIG 0x11) (EV Lxyz NP M0F W0 0x11 FVM NoRc).
Definition r_vmovupd_xo := mkRow RM None (V Lxy P66 M0F WIG 0x10) (EV Lxyz P66 M0F W1 0x10 FVM NoRc).
Definition r_vmovupd_ax := mkRow MR None (V Lxy P66 M0F WIG 0x11) (EV Lxyz P66 M0F W1 0x11 FVM NoRc).
Definition r_vmovddup_xo := mkRow RM None (V Lxy PF2 M0F WIG 0x12) (EV Lxyz PF2 M0F W1 0x12 DUP NoRc).
Definition r_vmovshdup_xo := mkRow RM None (V Lxy PF3 M0F WIG 0x16) (EV Lxyz PF3 M0F W0 0x16 FVM NoRc).
Definition r_vmovsldup_xo := mkRow RM None (V Lxy PF3 M0F WIG 0x12) (EV Lxyz PF3 M0F W0 0x12 FVM NoRc).
Definition r_vmovdqa_xo := mkRow RM None (V Lxy P66 M0F WIG 0x6F) no_evex.
Definition r_vmovdqa_ax := mkRow MR None (V Lxy P66 M0F WIG 0x7F) no_evex.
Definition r_vmovdqu_xo := mkRow RM None (V Lxy PF3 M0F WIG 0x6F) no_evex.
Definition r_vmovdqu_ax := mkRow MR None (V Lxy PF3 M0F WIG 0x7F) no_evex.
Definition r_vmovdqa32_xo := mkRow RM None no_vex (EV Lxyz P66 M0F W0 0x6F FVM NoRc).
Definition r_vmovdqa32_ax := mkRow MR None no_vex (EV Lxyz P66 M0F W0 0x7F FVM NoRc).
Definition r_vmovdqa64_xo := mkRow RM None no_vex (EV Lxyz P66 M0F W1 0x6F FVM NoRc).
Definition r_vmovdqa64_ax := mkRow MR None no_vex (EV Lxyz P66 M0F W1 0x7F FVM NoRc).
Definition r_vmovdqu8_xo := mkRow RM None no_vex (EV Lxyz PF2 M0F W0 0x6F FVM NoRc).
Definition r_vmovdqu8_ax := mkRow MR None no_vex (EV Lxyz PF2 M0F W0 0x7F FVM NoRc).
Definition r_vmovdqu16_xo := mkRow RM None no_vex (EV Lxyz PF2 M0F W1 0x6F FVM NoRc).
Definition r_vmovdqu16_ax := mkRow MR None no_vex (EV Lxyz PF2 M0F W1 0x7F FVM NoRc).
Definition r_vmovdqu32_xo := mkRow RM None no_vex (EV Lxyz PF3 M0F W0 0x6F FVM NoRc).
Definition r_vmovdqu32_ax := mkRow MR None no_vex (EV Lxyz PF3 M0F W0 0x7F FVM NoRc).
Definition r_vmovdqu64_xo := mkRow RM None no_vex (EV Lxyz PF3 M0F W1 0x6F FVM NoRc).
Definition r_vmovdqu64_ax := mkRow MR None no_vex (EV Lxyz PF3 M0F W1 0x7F FVM NoRc).
Definition r_vpabsb_xo := mkRow RM None (V Lxy P66 M0F38 WIG 0x1C) (EV Lxyz P66 M0F38 WIG 0x1C FVM NoRc).
Definition r_vpabsw_xo := mkRow RM None (V Lxy P66 M0F38 WIG 0x1D) (EV Lxyz P66 M0F38 WIG 0x1D FVM NoRc).
Definition r_vpabsd_xo := mkRow RM None (V Lxy P66 M0F38 WIG 0x1E) (EV Lxyz P66 M0F38 W0 0x1E (FV 4) NoRc).
Definition r_vpabsq_xo := mkRow RM None no_vex (EV Lxyz P66 M0F38 W1 0x1F (FV 8) NoRc).
Definition r_vpbroadcastb_xo := mkRow RM None (V Lxy P66 M0F38 W0 0x78) (EV Lxyz P66 M0F38 W0 0x78 (TS 1) NoRc).
Definition r_vpbroadcastw_xo := mkRow RM None (V Lxy P66 M0F38 W0 0x79) (EV Lxyz P66 M0F38 W0 0x79 (TS 2) NoRc).
Definition r_vpbroadcastd_xo := mkRow RM None (V Lxy P66 M0F38 W0 0x58) (EV Lxyz P66 M0F38 W0 0x58 (TS 4) NoRc).
Definition r_vpbroadcastq_xo := mkRow RM None (V Lxy P66 M0F38 W0 0x59) (EV Lxyz P66 M0F38 W1 0x59 (TS 8) NoRc).
Definition r_vpcmpestrm_xoi := mkRow RMI None (V Lx P66 M0F3A W0 0x60) no_evex.
Definition r_vpcmpestri_xoi := mkRow RMI None (V Lx P66 M0F3A W0 0x61) no_evex.
Definition r_vpcmpistrm_xoi := mkRow RMI None (V Lx P66 M0F3A WIG 0x62) no_evex.
Definition r_vpcmpistri_xoi := mkRow RMI None (V Lx P66 M0F3A WIG 0x63) no_evex.
Definition r_vphminposuw_xo := mkRow RM None (V Lx P66 M0F38 WIG 0x41) no_evex.
Definition r_vpmovsxbw_xo := mkRow RM None (V Lxy P66 M0F38 WIG 0x20) (EV Lxyz P66 M0F38 WIG 0x20 HVM NoRc).
Definition r_vpmovsxbd_xo := mkRow RM None (V Lxy P66 M0F38 WIG 0x21) (EV Lxyz P66 M0F38 WIG 0x21 QVM NoRc).
Definition r_vpmovsxbq_xo := mkRow RM None (V Lxy P66 M0F38 WIG 0x22) (EV Lxyz P66 M0F38 WIG 0x22 OVM NoRc).
Definition r_vpmovsxwd_xo := mkRow RM None (V Lxy P66 M0F38 WIG 0x23) (EV Lxyz P66 M0F38 WIG 0x23 HVM NoRc).
Definition r_vpmovsxwq_xo := mkRow RM None (V Lxy P66 M0F38 WIG 0x24) (EV Lxyz P66 M0F38 WIG 0x24 QVM NoRc).
Definition r_vpmovsxdq_xo := mkRow RM None (V Lxy P66 M0F38 WIG 0x25) (EV Lxyz P66 M0F38 W0 0x25 HVM NoRc).
Definition r_vpmovzxbw_xo := mkRow RM None (V Lxy P66 M0F38 WIG 0x30) (EV Lxyz P66 M0F38 WIG 0x30 HVM NoRc).
Definition r_vpmovzxbd_xo := mkRow RM None (V Lxy P66 M0F38 WIG 0x31) (EV Lxyz P66 M0F38 WIG 0x31 QVM NoRc).
Definition r_vpmovzxbq_xo := mkRow RM None (V Lxy P66 M0F38 WIG 0x32) (EV Lxyz P66 M0F38 WIG 0x32 OVM NoRc).
Definition r_vpmovzxwd_xo := mkRow RM None (V Lxy P66 M0F38 WIG 0x33) (EV Lxyz P66 M0F38 WIG 0x33 HVM NoRc).
Definition r_vpmovzxwq_xo := mkRow RM None (V Lxy P66 M0F38 WIG 0x34) (EV Lxyz P66 M0F38 WIG 0x34 QVM NoRc).
Definition r_vpmovzxdq_xo := mkRow RM None (V Lxy P66 M0F38 WIG 0x35) (EV Lxyz P66 M0F38 W0 0x35 HVM NoRc).
Definition r_vpshufd_xoi := mkRow RMI None (V Lxy P66 M0F WIG 0x70) (EV Lxyz P66 M0F W0 0x70 (FV 4) NoRc).
Definition r_vpshufhw_xoi := mkRow RMI None (V Lxy PF3 M0F WIG 0x70) (EV Lxyz PF3 M0F WIG 0x70 FVM NoRc).
Definition r_vpshuflw_xoi := mkRow RMI None (V Lxy PF2 M0F WIG 0x70) (EV Lxyz PF2 M0F WIG 0x70 FVM NoRc).
Definition r_vptest_xo := mkRow RM None (V Lxy P66 M0F38 WIG 0x17) no_evex.
Definition r_vtestps_xo := mkRow RM None (V Lxy P66 M0F38 W0 0x0E) no_evex.
Definition r_vtestpd_xo := mkRow RM None (V Lxy P66 M0F38 W0 0x0F) no_evex.
Definition r_vrcpps_xo := mkRow RM None (V Lxy NP M0F WIG 0x53) no_evex.
Definition r_vrsqrtps_xo := mkRow RM None (V Lxy NP M0F WIG 0x52) no_evex.
Definition r_vroundps_xoi := mkRow RMI None (V Lxy P66 M0F3A WIG 0x08) no_evex.
Definition r_vroundpd_xoi := mkRow RMI None (V Lxy P66 M0F3A WIG 0x09) no_evex.
Definition r_vsqrtps_xo := mkRow RM None (V Lxy NP M0F WIG 0x51) (EV Lxyz NP M0F W0 0x51 (FV 4) Er).
Definition r_vsqrtpd_xo := mkRow RM None (V Lxy P66 M0F WIG 0x51) (EV Lxyz P66 M0F W1 0x51 (FV 8) Er).
Definition r_vsqrtph_xo := mkRow RM None no_vex (EV Lxyz NP MAP5 W0 0x51 (FV 2) Er).
Definition r_vsqrtnepbf16_xo := mkRow RM None no_vex (EV Lxyz P66 MAP5 W0 0x51 (FV 2) NoRc).
Definition r_vbroadcastf32x2_yo := mkRow RM None no_vex (EV Lyz P66 M0F38 W0 0x19 (TS 8) NoRc).
Definition r_vbroadcasti32x2_xo := mkRow RM None no_vex (EV Lxyz P66 M0F38 W0 0x59 (TS 8) NoRc).
Definition r_vbroadcastf32x4_ya := mkRow RM None no_vex (EV Lyz P66 M0F38 W0 0x1A (TS 16) NoRc).
Definition r_vbroadcastf64x2_ya := mkRow RM None no_vex (EV Lyz P66 M0F38 W1 0x1A (TS 16) NoRc).
Definition r_vbroadcastf32x8_za := mkRow RM None no_vex (EV Lz P66 M0F38 W0 0x1B (TS 32) NoRc).
Definition r_vbroadcastf64x4_za := mkRow RM None no_vex (EV Lz P66 M0F38 W1 0x1B (TS 32) NoRc).
Definition r_vbroadcasti32x4_yo := mkRow RM None no_vex (EV Lyz P66 M0F38 W0 0x5A (TS 16) NoRc).
Definition r_vbroadcasti64x2_yo := mkRow RM None no_vex (EV Lyz P66 M0F38 W1 0x5A (TS 16) NoRc).
Definition r_vbroadcasti32x8_zo := mkRow RM None no_vex (EV Lz P66 M0F38 W0 0x5B (TS 32) NoRc).
Definition r_vbroadcasti64x4_zo := mkRow RM None no_vex (EV Lz P66 M0F38 W1 0x5B (TS 32) NoRc).
Definition r_vcompressps_ox := mkRow MR None no_vex (EV Lxyz P66 M0F38 W0 0x8A (TS 4) NoRc).
Definition r_vcompresspd_ox := mkRow MR None no_vex (EV Lxyz P66 M0F38 W1 0x8A (TS 8) NoRc).
Definition r_vpcompressd_ox := mkRow MR None no_vex (EV Lxyz P66 M0F38 W0 0x8B (TS 4) NoRc).
Definition r_vpcompressq_ox := mkRow MR None no_vex (EV Lxyz P66 M0F38 W1 0x8B (TS 8) NoRc).
Definition r_vpcompressb_ox := mkRow MR None no_vex (EV Lxyz P66 M0F38 W0 0x63 (TS 1) NoRc).
Definition r_vpcompressw_ox := mkRow MR None no_vex (EV Lxyz P66 M0F38 W1 0x63 (TS 2) NoRc).
Definition r_vexpandps_xo := mkRow RM None no_vex (EV Lxyz P66 M0F38 W0 0x88 (TS 4) NoRc).
Definition r_vexpandpd_xo := mkRow RM None no_vex (EV Lxyz P66 M0F38 W1 0x88 (TS 8) NoRc).
Definition r_vpexpandd_xo := mkRow RM None no_vex (EV Lxyz P66 M0F38 W0 0x89 (TS 4) NoRc).
Definition r_vpexpandq_xo := mkRow RM None no_vex (EV Lxyz P66 M0F38 W1 0x89 (TS 8) NoRc).
Definition r_vpexpandb_xo := mkRow RM None no_vex (EV Lxyz P66 M0F38 W0 0x62 (TS 1) NoRc).
Definition r_vpexpandw_xo := mkRow RM None no_vex (EV Lxyz P66 M0F38 W1 0x62 (TS 2) NoRc).
Definition r_vcvtpd2qq_xo := mkRow RM None no_vex (EV Lxyz P66 M0F W1 0x7B (FV 8) Er).
Definition r_vcvtpd2uqq_xo := mkRow RM None no_vex (EV Lxyz P66 M0F W1 0x79 (FV 8) Er).
Definition r_vcvttpd2qq_xo := mkRow RM None no_vex (EV Lxyz P66 M0F W1 0x7A (FV 8) Sae).
Definition r_vcvttpd2uqq_xo := mkRow RM None no_vex (EV Lxyz P66 M0F W1 0x78 (FV 8) Sae).
Definition r_vcvtps2qq_xo := mkRow RM None no_vex (EV Lxyz P66 M0F W0 0x7B (HV 4) Er).
Definition r_vcvtps2uqq_xo := mkRow RM None no_vex (EV Lxyz P66 M0F W0 0x79 (HV 4) Er).
Definition r_vcvttps2qq_xo := mkRow RM None no_vex (EV Lxyz P66 M0F W0 0x7A (HV 4) Sae).
Definition r_vcvttps2uqq_xo := mkRow RM None no_vex (EV Lxyz P66 M0F W0 0x78 (HV 4) Sae).
Definition r_vcvtps2udq_xo := mkRow RM None no_vex (EV Lxyz NP M0F W0 0x79 (FV 4) Er).
Definition r_vcvttps2udq_xo := mkRow RM None no_vex (EV Lxyz NP M0F W0 0x78 (FV 4) Sae).
Definition r_vcvtpd2udq_xo := mkRow RM None no_vex (EV Lxyz NP M0F W1 0x79 (FV 8) Er).
Definition r_vcvttpd2udq_xo := mkRow RM None no_vex (EV Lxyz NP M0F W1 0x78 (FV 8) Sae).
Definition r_vcvtqq2pd_xo := mkRow RM None no_vex (EV Lxyz PF3 M0F W1 0xE6 (FV 8) Er).
Definition r_vcvtqq2ps_xo := mkRow RM None no_vex (EV Lxyz NP M0F W1 0x5B (FV 8) Er).
Definition r_vcvtuqq2pd_xo := mkRow RM None no_vex (EV Lxyz PF3 M0F W1 0x7A (FV 8) Er).
Definition r_vcvtuqq2ps_xo := mkRow RM None no_vex (EV Lxyz PF2 M0F W1 0x7A (FV 8) Er).
Definition r_vcvtudq2ps_xo := mkRow RM None no_vex (EV Lxyz PF2 M0F W0 0x7A (FV 4) Er).
Definition r_vcvtudq2pd_xo := mkRow RM None no_vex (EV Lxyz PF3 M0F W0 0x7A (HV 4) NoRc).
Definition r_vcvtph2w_xo := mkRow RM None no_vex (EV Lxyz P66 MAP5 W0 0x7D (FV 2) Er).
Definition r_vcvtph2uw_xo := mkRow RM None no_vex (EV Lxyz NP MAP5 W0 0x7D (FV 2) Er).
Definition r_vcvttph2w_xo := mkRow RM None no_vex (EV Lxyz P66 MAP5 W0 0x7C (FV 2) Sae).
Definition r_vcvttph2uw_xo := mkRow RM None no_vex (EV Lxyz NP MAP5 W0 0x7C (FV 2) Sae).
Definition r_vcvtw2ph_xo := mkRow RM None no_vex (EV Lxyz PF3 MAP5 W0 0x7D (FV 2) Er).
Definition r_vcvtuw2ph_xo := mkRow RM None no_vex (EV Lxyz PF2 MAP5 W0 0x7D (FV 2) Er).
Definition r_vcvtph2dq_xo := mkRow RM None no_vex (EV Lxyz P66 MAP5 W0 0x5B (HV 2) Er).
Definition r_vcvttph2dq_xo := mkRow RM None no_vex (EV Lxyz PF3 MAP5 W0 0x5B (HV 2) Sae).
Definition r_vcvtph2udq_xo := mkRow RM None no_vex (EV Lxyz NP MAP5 W0 0x79 (HV 2) Er).
Definition r_vcvttph2udq_xo := mkRow RM None no_vex (EV Lxyz NP MAP5 W0 0x78 (HV 2) Sae).
Definition r_vcvtph2qq_xo := mkRow RM None no_vex (EV Lxyz P66 MAP5 W0 0x7B (QV 2) Er).
Definition r_vcvttph2qq_xo := mkRow RM None no_vex (EV Lxyz P66 MAP5 W0 0x7A (QV 2) Sae).
Definition r_vcvtph2uqq_xo := mkRow RM None no_vex (EV Lxyz P66 MAP5 W0 0x79 (QV 2) Er).
Definition r_vcvttph2uqq_xo := mkRow RM None no_vex (EV Lxyz P66 MAP5 W0 0x78 (QV 2) Sae).
Definition r_vcvtph2pd_xo := mkRow RM None no_vex (EV Lxyz NP MAP5 W0 0x5A (QV 2) Sae).
Definition r_vcvtph2psx_xo := mkRow RM None no_vex (EV Lxyz P66 MAP6 W0 0x13 (HV 2) Sae).
Definition r_vcvthf82ph_xo := mkRow RM None no_vex (EV Lxyz PF2 MAP5 W0 0x1E HVM NoRc).
Definition r_vcvtdq2ph_xo := mkRow RM None no_vex (EV Lxyz NP MAP5 W0 0x5B (FV 4) Er).
Definition r_vcvtps2phx_xo := mkRow RM None no_vex (EV Lxyz P66 MAP5 W0 0x1D (FV 4) Er).
Definition r_vcvtudq2ph_xo := mkRow RM None no_vex (EV Lxyz PF2 MAP5 W0 0x7A (FV 4) Er).
Definition r_vcvtpd2ph_xo := mkRow RM None no_vex (EV Lxyz P66 MAP5 W1 0x5A (FV 8) Er).
Definition r_vcvtqq2ph_xo := mkRow RM None no_vex (EV Lxyz NP MAP5 W1 0x5B (FV 8) Er).
Definition r_vcvtuqq2ph_xo := mkRow RM None no_vex (EV Lxyz PF2 MAP5 W1 0x7A (FV 8) Er).
Definition r_vcvtps2ibs_xo := mkRow RM None no_vex (EV Lxyz P66 MAP5 W0 0x69 (FV 4) Er).
Definition r_vcvtps2iubs_xo := mkRow RM None no_vex (EV Lxyz P66 MAP5 W0 0x6B (FV 4) Er).
Definition r_vcvttps2ibs_xo := mkRow RM None no_vex (EV Lxyz P66 MAP5 W0 0x68 (FV 4) Sae).
Definition r_vcvttps2iubs_xo := mkRow RM None no_vex (EV Lxyz P66 MAP5 W0 0x6A (FV 4) Sae).
Definition r_vcvtph2ibs_xo := mkRow RM None no_vex (EV Lxyz NP MAP5 W0 0x69 (FV 2) Er).
Definition r_vcvtph2iubs_xo := mkRow RM None no_vex (EV Lxyz NP MAP5 W0 0x6B (FV 2) Er).
Definition r_vcvttph2ibs_xo := mkRow RM None no_vex (EV Lxyz NP MAP5 W0 0x68 (FV 2) Sae).
Definition r_vcvttph2iubs_xo := mkRow RM None no_vex (EV Lxyz NP MAP5 W0 0x6A (FV 2) Sae).
Definition r_vcvtnebf162ibs_xo := mkRow RM None no_vex (EV Lxyz PF2 MAP5 W0 0x69 (FV 2) NoRc).
Definition r_vcvtnebf162iubs_xo := mkRow RM None no_vex (EV Lxyz PF2 MAP5 W0 0x6B (FV 2) NoRc).
Definition r_vcvttnebf162ibs_xo := mkRow RM None no_vex (EV Lxyz PF2 MAP5 W0 0x68 (FV 2) NoRc).
Definition r_vcvttnebf162iubs_xo := mkRow RM None no_vex (EV Lxyz PF2 MAP5 W0 0x6A (FV 2) NoRc).
Definition r_vcvttps2dqs_xo := mkRow RM None no_vex (EV Lxyz NP MAP5 W0 0x6D (FV 4) Sae).
Definition r_vcvttps2udqs_xo := mkRow RM None no_vex (EV Lxyz NP MAP5 W0 0x6C (FV 4) Sae).
Definition r_vcvttpd2dqs_xo := mkRow RM None no_vex (EV Lxyz NP MAP5 W1 0x6D (FV 8) Sae).
Definition r_vcvttpd2udqs_xo := mkRow RM None no_vex (EV Lxyz NP MAP5 W1 0x6C (FV 8) Sae).
Definition r_vcvttpd2qqs_xo := mkRow RM None no_vex (EV Lxyz P66 MAP5 W1 0x6D (FV 8) Sae).
Definition r_vcvttpd2uqqs_xo := mkRow RM None no_vex (EV Lxyz P66 MAP5 W1 0x6C (FV 8) Sae).
Definition r_vcvttps2qqs_xo := mkRow RM None no_vex (EV Lxyz P66 MAP5 W0 0x6D (HV 4) Sae).
Definition r_vcvttps2uqqs_xo := mkRow RM None no_vex (EV Lxyz P66 MAP5 W0 0x6C (HV 4) Sae).
Definition r_vcvtpd2dq_xo := mkRow RM None (V Lxy PF2 M0F WIG 0xE6) (EV Lxyz PF2 M0F W1 0xE6 (FV 8) Er).
Definition r_vcvttpd2dq_xo := mkRow RM None (V Lxy P66 M0F WIG 0xE6) (EV Lxyz P66 M0F W1 0xE6 (FV 8) Sae).
Definition r_vcvtpd2ps_xo := mkRow RM None (V Lxy P66 M0F WIG 0x5A) (EV Lxyz P66 M0F W1 0x5A (FV 8) Er).
Definition r_vcvtdq2pd_xo := mkRow RM None (V Lxy PF3 M0F WIG 0xE6) (EV Lxyz PF3 M0F W0 0xE6 (HV 4) NoRc).
Definition r_vcvtps2pd_xo := mkRow RM None (V Lxy NP M0F WIG 0x5A) (EV Lxyz NP M0F W0 0x5A (HV 4) Sae).
Definition r_vcvtph2ps_xo := mkRow RM None (V Lxy P66 M0F38 W0 0x13) (EV Lxyz P66 M0F38 W0 0x13 HVM Sae).
Definition r_vcvtps2ph_oxi := mkRow MRI None (V Lxy P66 M0F3A W0 0x1D) (EV Lxyz P66 M0F3A W0 0x1D HVM Sae).
Definition r_vexp2ps_zo := mkRow RM None no_vex (EV Lz P66 M0F38 W0 0xC8 (FV 4) Sae).
Definition r_vexp2pd_zo := mkRow RM None no_vex (EV Lz P66 M0F38 W1 0xC8 (FV 8) Sae).
Definition r_vrcp28ps_zo := mkRow RM None no_vex (EV Lz P66 M0F38 W0 0xCA (FV 4) Sae).
Definition r_vrcp28pd_zo := mkRow RM None no_vex (EV Lz P66 M0F38 W1 0xCA (FV 8) Sae).
Definition r_vrsqrt28ps_zo := mkRow RM None no_vex (EV Lz P66 M0F38 W0 0xCC (FV 4) Sae).
Definition r_vrsqrt28pd_zo := mkRow RM None no_vex (EV Lz P66 M0F38 W1 0xCC (FV 8) Sae).
Definition r_vrcp14ps_xo := mkRow RM None no_vex (EV Lxyz P66 M0F38 W0 0x4C (FV 4) NoRc).
Definition r_vrcp14pd_xo := mkRow RM None no_vex (EV Lxyz P66 M0F38 W1 0x4C (FV 8) NoRc).
Definition r_vrsqrt14ps_xo := mkRow RM None no_vex (EV Lxyz P66 M0F38 W0 0x4E (FV 4) NoRc).
Definition r_vrsqrt14pd_xo := mkRow RM None no_vex (EV Lxyz P66 M0F38 W1 0x4E (FV 8) NoRc).
Definition r_vrcpph_xo := mkRow RM None no_vex (EV Lxyz P66 MAP6 W0 0x4C (FV 2) NoRc).
Definition r_vrsqrtph_xo := mkRow RM None no_vex (EV Lxyz P66 MAP6 W0 0x4E (FV 2) NoRc).
Definition r_vrcppbf16_xo := mkRow RM None no_vex (EV Lxyz NP MAP6 W0 0x4C (FV 2) NoRc).
Definition r_vrsqrtpbf16_xo := mkRow RM None no_vex (EV Lxyz NP MAP6 W0 0x4E (FV 2) NoRc).
Definition r_vpconflictd_xo := mkRow RM None no_vex (EV Lxyz P66 M0F38 W0 0xC4 (FV 4) NoRc).
Definition r_vpconflictq_xo := mkRow RM None no_vex (EV Lxyz P66 M0F38 W1 0xC4 (FV 8) NoRc).
Definition r_vplzcntd_xo := mkRow RM None no_vex (EV Lxyz P66 M0F38 W0 0x44 (FV 4) NoRc).
Definition r_vplzcntq_xo := mkRow RM None no_vex (EV Lxyz P66 M0F38 W1 0x44 (FV 8) NoRc).
Definition r_vpopcntb_xo := mkRow RM None no_vex (EV Lxyz P66 M0F38 W0 0x54 FVM NoRc).
Definition r_vpopcntw_xo := mkRow RM None no_vex (EV Lxyz P66 M0F38 W1 0x54 FVM NoRc).
Definition r_vpopcntd_xo := mkRow RM None no_vex (EV Lxyz P66 M0F38 W0 0x55 (FV 4) NoRc).
Definition r_vpopcntq_xo := mkRow RM None no_vex (EV Lxyz P66 M0F38 W1 0x55 (FV 8) NoRc).
Definition r_vreduceps_xoi := mkRow RMI None no_vex (EV Lxyz P66 M0F3A W0 0x56 (FV 4) Sae).
Definition r_vreducepd_xoi := mkRow RMI None no_vex (EV Lxyz P66 M0F3A W1 0x56 (FV 8) Sae).
Definition r_vreduceph_xoi := mkRow RMI None no_vex (EV Lxyz NP M0F3A W0 0x56 (FV 2) Sae).
Definition r_vreducenepbf16_xoi := mkRow RMI None no_vex (EV Lxyz PF2 M0F3A W0 0x56 (FV 2) NoRc).
Definition r_vrndscaleps_xoi := mkRow RMI None no_vex (EV Lxyz P66 M0F3A W0 0x08 (FV 4) Sae).
Definition r_vrndscalepd_xoi := mkRow RMI None no_vex (EV Lxyz P66 M0F3A W1 0x09 (FV 8) Sae).
Definition r_vrndscaleph_xoi := mkRow RMI None no_vex (EV Lxyz NP M0F3A W0 0x08 (FV 2) Sae).
Definition r_vrndscalenepbf16_xoi := mkRow RMI None no_vex (EV Lxyz PF2 M0F3A W0 0x08 (FV 2) NoRc).
Definition r_vcmpps_kxoi := mkRow RVMI None no_vex (EV Lxyz NP M0F W0 0xC2 (FV 4) Sae).
Definition r_vcmppd_kxoi := mkRow RVMI None no_vex (EV Lxyz P66 M0F W1 0xC2 (FV 8) Sae).
Definition r_vcmpss_kxoi := mkRow RVMI None no_vex (EV LIG PF3 M0F W0 0xC2 (TS 4) Sae).
Definition r_vcmpsd_kxoi := mkRow RVMI None no_vex (EV LIG PF2 M0F W1 0xC2 (TS 8) Sae).
Definition r_vcmpph_kxoi := mkRow RVMI None no_vex (EV Lxyz NP M0F3A W0 0xC2 (FV 2) Sae).
Definition r_vcmpsh_kxoi := mkRow RVMI None no_vex (EV LIG PF3 M0F3A W0 0xC2 (TS 2) Sae).
Definition r_vcmppbf16_kxoi := mkRow RVMI None no_vex (EV Lxyz PF2 M0F3A W0 0xC2 (FV 2) NoRc).
Definition r_vp2intersectd_kxo := mkRow RVM None no_vex (EV Lxyz PF2 M0F38 W0 0x68 (FV 4) NoRc).
Definition r_vp2intersectq_kxo := mkRow RVM None no_vex (EV Lxyz PF2 M0F38 W1 0x68 (FV 8) NoRc).
Definition r_vpcmpb_kxoi := mkRow RVMI None no_vex (EV Lxyz P66 M0F3A W0 0x3F FVM NoRc).
Definition r_vpcmpw_kxoi := mkRow RVMI None no_vex (EV Lxyz P66 M0F3A W1 0x3F FVM NoRc).
Definition r_vpcmpub_kxoi := mkRow RVMI None no_vex (EV Lxyz P66 M0F3A W0 0x3E FVM NoRc).
Definition r_vpcmpuw_kxoi := mkRow RVMI None no_vex (EV Lxyz P66 M0F3A W1 0x3E FVM NoRc).
Definition r_vpcmpd_kxoi := mkRow RVMI None no_vex (EV Lxyz P66 M0F3A W0 0x1F (FV 4) NoRc).
Definition r_vpcmpq_kxoi := mkRow RVMI None no_vex (EV Lxyz P66 M0F3A W1 0x1F (FV 8) NoRc).
Definition r_vpcmpud_kxoi := mkRow RVMI None no_vex (EV Lxyz P66 M0F3A W0 0x1E (FV 4) NoRc).
Definition r_vpcmpuq_kxoi := mkRow RVMI None no_vex (EV Lxyz P66 M0F3A W1 0x1E (FV 8) NoRc).
Definition r_vpcmpeqb_kxo := mkRow RVM None no_vex (EV Lxyz P66 M0F WIG 0x74 FVM NoRc).
Definition r_vpcmpeqw_kxo := mkRow RVM None no_vex (EV Lxyz P66 M0F WIG 0x75 FVM NoRc).
Definition r_vpcmpeqd_kxo := mkRow RVM None no_vex (EV Lxyz P66 M0F W0 0x76 (FV 4) NoRc).
Definition r_vpcmpeqq_kxo := mkRow RVM None no_vex (EV Lxyz P66 M0F38 W1 0x29 (FV 8) NoRc).
Definition r_vpcmpgtb_kxo := mkRow RVM None no_vex (EV Lxyz P66 M0F WIG 0x64 FVM NoRc).
Definition r_vpcmpgtw_kxo := mkRow RVM None no_vex (EV Lxyz P66 M0F WIG 0x65 FVM NoRc).
Definition r_vpcmpgtd_kxo := mkRow RVM None no_vex (EV Lxyz P66 M0F W0 0x66 (FV 4) NoRc).
Definition r_vpcmpgtq_kxo := mkRow RVM None no_vex (EV Lxyz P66 M0F38 W1 0x37 (FV 8) NoRc).
Definition r_vptestmb_kxo := mkRow RVM None no_vex (EV Lxyz P66 M0F38 W0 0x26 FVM NoRc).
Definition r_vptestmw_kxo := mkRow RVM None no_vex (EV Lxyz P66 M0F38 W1 0x26 FVM NoRc).
Definition r_vptestmd_kxo := mkRow RVM None no_vex (EV Lxyz P66 M0F38 W0 0x27 (FV 4) NoRc).
Definition r_vptestmq_kxo := mkRow RVM None no_vex (EV Lxyz P66 M0F38 W1 0x27 (FV 8) NoRc).
Definition r_vptestnmb_kxo := mkRow RVM None no_vex (EV Lxyz PF3 M0F38 W0 0x26 FVM NoRc).
Definition r_vptestnmw_kxo := mkRow RVM None no_vex (EV Lxyz PF3 M0F38 W1 0x26 FVM NoRc).
Definition r_vptestnmd_kxo := mkRow RVM None no_vex (EV Lxyz PF3 M0F38 W0 0x27 (FV 4) NoRc).
Definition r_vptestnmq_kxo := mkRow RVM None no_vex (EV Lxyz PF3 M0F38 W1 0x27 (FV 8) NoRc).
Definition r_vfpclassps_koi := mkRow RMI None no_vex (EV Lxyz P66 M0F3A W0 0x66 (FV 4) NoRc).
Definition r_vfpclasspd_koi := mkRow RMI None no_vex (EV Lxyz P66 M0F3A W1 0x66 (FV 8) NoRc).
Definition r_vfpclassss_koi := mkRow RMI None no_vex (EV LIG P66 M0F3A W0 0x67 (TS 4) NoRc).
Definition r_vfpclasssd_koi := mkRow RMI None no_vex (EV LIG P66 M0F3A W1 0x67 (TS 8) NoRc).
Definition r_vfpclassph_koi := mkRow RMI None no_vex (EV Lxyz NP M0F3A W0 0x66 (FV 2) NoRc).
Definition r_vfpclasssh_koi := mkRow RMI None no_vex (EV LIG NP M0F3A W0 0x67 (TS 2) NoRc).
Definition r_vfpclasspbf16_koi := mkRow RMI None no_vex (EV Lxyz PF2 M0F3A W0 0x66 (FV 2) NoRc).
Definition r_vpshufbitqmb_kxo := mkRow RVM None no_vex (EV Lxyz P66 M0F38 W0 0x8F FVM NoRc).
Definition r_vpmovb2m_kx := mkRow RM None no_vex (EV Lxyz PF3 M0F38 W0 0x29 FVM NoRc).
Definition r_vpmovw2m_kx := mkRow RM None no_vex (EV Lxyz PF3 M0F38 W1 0x29 FVM NoRc).
Definition r_vpmovd2m_kx := mkRow RM None no_vex (EV Lxyz PF3 M0F38 W0 0x39 FVM NoRc).
Definition r_vpmovq2m_kx := mkRow RM None no_vex (EV Lxyz PF3 M0F38 W1 0x39 FVM NoRc).
Definition r_vpmovm2b_xk := mkRow RM None no_vex (EV Lxyz PF3 M0F38 W0 0x28 FVM NoRc).
Definition r_vpmovm2w_xk := mkRow RM None no_vex (EV Lxyz PF3 M0F38 W1 0x28 FVM NoRc).
Definition r_vpmovm2d_xk := mkRow RM None no_vex (EV Lxyz PF3 M0F38 W0 0x38 FVM NoRc).
Definition r_vpmovm2q_xk := mkRow RM None no_vex (EV Lxyz PF3 M0F38 W1 0x38 FVM NoRc).
Definition r_vpbroadcastmb2q_xk := mkRow RM None no_vex (EV Lxyz PF3 M0F38 W1 0x2A FVM NoRc).
Definition r_vpbroadcastmw2d_xk := mkRow RM None no_vex (EV Lxyz PF3 M0F38 W0 0x3A FVM NoRc).
Definition r_vpbroadcastb_xb := mkRow RM None no_vex (EV Lxyz P66 M0F38 W0 0x7A FVM NoRc).
Definition r_vpbroadcastw_xw := mkRow RM None no_vex (EV Lxyz P66 M0F38 W0 0x7B FVM NoRc).
Definition r_vpbroadcastd_xd := mkRow RM None no_vex (EV Lxyz P66 M0F38 W0 0x7C FVM NoRc).
Definition r_vpbroadcastq_xq := mkRow RM None no_vex (EV Lxyz P66 M0F38 W1 0x7C FVM NoRc).
Definition r_vbcstnesh2ps_xa := mkRow RM None (V Lxy P66 M0F38 W0 0xB1) no_evex.
Definition r_vbcstnebf162ps_xa := mkRow RM None (V Lxy PF3 M0F38 W0 0xB1) no_evex.
Definition r_vcvtneeph2ps_xa := mkRow RM None (V Lxy P66 M0F38 W0 0xB0) no_evex.
Definition r_vcvtneebf162ps_xa := mkRow RM None (V Lxy PF3 M0F38 W0 0xB0) no_evex.
Definition r_vcvtneobf162ps_xa := mkRow RM None (V Lxy PF2 M0F38 W0 0xB0) no_evex.
Definition r_vcvtneoph2ps_xa := mkRow RM None (V Lxy NP M0F38 W0 0xB0) no_evex.
Definition r_vextractf128_oyi := mkRow MRI None (V Ly P66 M0F3A W0 0x19) no_evex.
Definition r_vextracti128_oyi := mkRow MRI None (V Ly P66 M0F3A W0 0x39) no_evex.
Definition r_vinsertf128_yyoi := mkRow RVMI None (V Ly P66 M0F3A W0 0x18) no_evex.
Definition r_vinserti128_yyoi := mkRow RVMI None (V Ly P66 M0F3A W0 0x38) no_evex.
Definition r_vperm2f128_yyoi := mkRow RVMI None (V Ly P66 M0F3A W0 0x06) no_evex.
Definition r_vperm2i128_yyoi := mkRow RVMI None (V Ly P66 M0F3A W0 0x46) no_evex.
Definition r_vextractps_oxi := mkRow MRI None (V Lx P66 M0F3A WIG 0x17) (EV Lx P66 M0F3A WIG 0x17 (TS 4) NoRc).
Definition r_vmovntdq_ax := mkRow MR None (V Lxy P66 M0F WIG 0xE7) (EV Lxyz P66 M0F W0 0xE7 FVM NoRc).
Definition r_vmovntdqa_xa := mkRow RM None (V Lxy P66 M0F38 WIG 0x2A) (EV Lxyz P66 M0F38 W0 0x2A FVM NoRc).
Definition r_vmovntpd_ax := mkRow MR None (V Lxy P66 M0F WIG 0x2B) (EV Lxyz P66 M0F W1 0x2B FVM NoRc).
Definition r_vmovntps_ax := mkRow MR None (V Lxy NP M0F WIG 0x2B) (EV Lxyz NP M0F W0 0x2B FVM NoRc).
Definition r_vpextrb_oxi := mkRow MRI None (V Lx P66 M0F3A W0 0x14) (EV Lx P66 M0F3A WIG 0x14 (TS 1) NoRc).
Definition r_vpextrd_oxi := mkRow MRI None (V Lx P66 M0F3A W0 0x16) (EV Lx P66 M0F3A W0 0x16 (TS 4) NoRc).
Definition r_vpextrq_oxi := mkRow MRI None (V Lx P66 M0F3A W1 0x16) (EV Lx P66 M0F3A W1 0x16 (TS 8) NoRc).
Definition r_vpinsrb_xxoi := mkRow RVMI None (V Lx P66 M0F3A W0 0x20) (EV Lx P66 M0F3A WIG 0x20 (TS 1) NoRc).
Definition r_vpinsrw_xxoi := mkRow RVMI None (V Lx P66 M0F W0 0xC4) (EV Lx P66 M0F WIG 0xC4 (TS 2) NoRc).
Definition r_vpinsrd_xxoi := mkRow RVMI None (V Lx P66 M0F3A W0 0x22) (EV Lx P66 M0F3A W0 0x22 (TS 4) NoRc).
Definition r_vpinsrq_xxoi := mkRow RVMI None (V Lx P66 M0F3A W1 0x22) (EV Lx P66 M0F3A W1 0x22 (TS 8) NoRc).
Definition r_vpmovmskb_ex := mkRow RM None (V Lxy P66 M0F WIG 0xD7) no_evex.
Definition r_vsha512msg1_yx := mkRow RM None (V Ly PF2 M0F38 W0 0xCC) no_evex.
Definition r_vsha512msg2_yy := mkRow RM None (V Ly PF2 M0F38 W0 0xCD) no_evex.
Definition r_vsha512rnds2_yyx := mkRow RVM None (V Ly PF2 M0F38 W0 0xCB) no_evex.
Definition r_vextractf32x4_oyi := mkRow MRI None no_vex (EV Lyz P66 M0F3A W0 0x19 (TS 16) NoRc).
Definition r_vinsertf32x4_yyoi := mkRow RVMI None no_vex (EV Lyz P66 M0F3A W0 0x18 (TS 16) NoRc).
Definition r_vextracti32x4_oyi := mkRow MRI None no_vex (EV Lyz P66 M0F3A W0 0x39 (TS 16) NoRc).
Definition r_vinserti32x4_yyoi := mkRow RVMI None no_vex (EV Lyz P66 M0F3A W0 0x38 (TS 16) NoRc).
Definition r_vextractf64x2_oyi := mkRow MRI None no_vex (EV Lyz P66 M0F3A W1 0x19 (TS 16) NoRc).
Definition r_vinsertf64x2_yyoi := mkRow RVMI None no_vex (EV Lyz P66 M0F3A W1 0x18 (TS 16) NoRc).
Definition r_vextracti64x2_oyi := mkRow MRI None no_vex (EV Lyz P66 M0F3A W1 0x39 (TS 16) NoRc).
Definition r_vinserti64x2_yyoi := mkRow RVMI None no_vex (EV Lyz P66 M0F3A W1 0x38 (TS 16) NoRc).
Definition r_vextractf32x8_ozi := mkRow MRI None no_vex (EV Lz P66 M0F3A W0 0x1B (TS 32) NoRc).
Definition r_vinsertf32x8_zzoi := mkRow RVMI None no_vex (EV Lz P66 M0F3A W0 0x1A (TS 32) NoRc).
Definition r_vextracti32x8_ozi := mkRow MRI None no_vex (EV Lz P66 M0F3A W0 0x3B (TS 32) NoRc).
Definition r_vinserti32x8_zzoi := mkRow RVMI None no_vex (EV Lz P66 M0F3A W0 0x3A (TS 32) NoRc).
Definition r_vextractf64x4_ozi := mkRow MRI None no_vex (EV Lz P66 M0F3A W1 0x1B (TS 32) NoRc).
Definition r_vinsertf64x4_zzoi := mkRow RVMI None no_vex (EV Lz P66 M0F3A W1 0x1A (TS 32) NoRc).
Definition r_vextracti64x4_ozi := mkRow MRI None no_vex (EV Lz P66 M0F3A W1 0x3B (TS 32) NoRc).
Definition r_vinserti64x4_zzoi := mkRow RVMI None no_vex (EV Lz P66 M0F3A W1 0x3A (TS 32) NoRc).
Definition r_vcvtsd2usi_eo32 := mkRow RM None no_vex (EV LIG PF2 M0F W0 0x79 (TS 8) Er).
Definition r_vcvtsd2usi_eo64 := mkRow RM None no_vex (EV LIG PF2 M0F W1 0x79 (TS 8) Er).
Definition r_vcvttsd2usi_eo32 := mkRow RM None no_vex (EV LIG PF2 M0F W0 0x78 (TS 8) Sae).
Definition r_vcvttsd2usi_eo64 := mkRow RM None no_vex (EV LIG PF2 M0F W1 0x78 (TS 8) Sae).
Definition r_vcvtss2usi_eo32 := mkRow RM None no_vex (EV LIG PF3 M0F W0 0x79 (TS 4) Er).
Definition r_vcvtss2usi_eo64 := mkRow RM None no_vex (EV LIG PF3 M0F W1 0x79 (TS 4) Er).
Definition r_vcvttss2usi_eo32 := mkRow RM None no_vex (EV LIG PF3 M0F W0 0x78 (TS 4) Sae).
Definition r_vcvttss2usi_eo64 := mkRow RM None no_vex (EV LIG PF3 M0F W1 0x78 (TS 4) Sae).
Definition r_vcvtsh2si_eo32 := mkRow RM None no_vex (EV LIG PF3 MAP5 W0 0x2D (TS 2) Er).
Definition r_vcvtsh2si_eo64 := mkRow RM None no_vex (EV LIG PF3 MAP5 W1 0x2D (TS 2) Er).
Definition r_vcvtsh2usi_eo32 := mkRow RM None no_vex (EV LIG PF3 MAP5 W0 0x79 (TS 2) Er).
Definition r_vcvtsh2usi_eo64 := mkRow RM None no_vex (EV LIG PF3 MAP5 W1 0x79 (TS 2) Er).
Definition r_vcvttsh2si_eo32 := mkRow RM None no_vex (EV LIG PF3 MAP5 W0 0x2C (TS 2) Sae).
Definition r_vcvttsh2si_eo64 := mkRow RM None no_vex (EV LIG PF3 MAP5 W1 0x2C (TS 2) Sae).
Definition r_vcvttsh2usi_eo32 := mkRow RM None no_vex (EV LIG PF3 MAP5 W0 0x78 (TS 2) Sae).
Definition r_vcvttsh2usi_eo64 := mkRow RM None no_vex (EV LIG PF3 MAP5 W1 0x78 (TS 2) Sae).
Definition r_vcvttsd2sis_eo32 := mkRow RM None no_vex (EV LIG PF2 MAP5 W0 0x6D (TS 8) Sae).
Definition r_vcvttsd2sis_eo64 := mkRow RM None no_vex (EV LIG PF2 MAP5 W1 0x6D (TS 8) Sae).
Definition r_vcvttsd2usis_eo32 := mkRow RM None no_vex (EV LIG PF2 MAP5 W0 0x6C (TS 8) Sae).
Definition r_vcvttsd2usis_eo64 := mkRow RM None no_vex (EV LIG PF2 MAP5 W1 0x6C (TS 8) Sae).
Definition r_vcvttss2sis_eo32 := mkRow RM None no_vex (EV LIG PF3 MAP5 W0 0x6D (TS 4) Sae).
Definition r_vcvttss2sis_eo64 := mkRow RM None no_vex (EV LIG PF3 MAP5 W1 0x6D (TS 4) Sae).
Definition r_vcvttss2usis_eo32 := mkRow RM None no_vex (EV LIG PF3 MAP5 W0 0x6C (TS 4) Sae).
Definition r_vcvttss2usis_eo64 := mkRow RM None no_vex (EV LIG PF3 MAP5 W1 0x6C (TS 4) Sae).
Definition r_vcvtsi2ss_xxo32 := mkRow RVM None (V LIG PF3 M0F W0 0x2A) (EV LIG PF3 M0F W0 0x2A (TS 4) Er).
Definition r_vcvtsi2ss_xxo64 := mkRow RVM None (V LIG PF3 M0F W1 0x2A) (EV LIG PF3 M0F W1 0x2A (TS 8) Er).
Definition r_vcvtsi2sd_xxo32 := mkRow RVM None (V LIG PF2 M0F W0 0x2A) (EV LIG PF2 M0F W0 0x2A (TS 4) Er).
Definition r_vcvtsi2sd_xxo64 := mkRow RVM None (V LIG PF2 M0F W1 0x2A) (EV LIG PF2 M0F W1 0x2A (TS 8) Er).
Definition r_vcvtusi2ss_xxo32 := mkRow RVM None no_vex (EV LIG PF3 M0F W0 0x7B (TS 4) Er).
Definition r_vcvtusi2ss_xxo64 := mkRow RVM None no_vex (EV LIG PF3 M0F W1 0x7B (TS 8) Er).
Definition r_vcvtusi2sd_xxo32 := mkRow RVM None no_vex (EV LIG PF2 M0F W0 0x7B (TS 4) Er).
Definition r_vcvtusi2sd_xxo64 := mkRow RVM None no_vex (EV LIG PF2 M0F W1 0x7B (TS 8) Er).
Definition r_vcvtsi2sh_xxo32 := mkRow RVM None no_vex (EV LIG PF3 MAP5 W0 0x2A (TS 4) Er).
Definition r_vcvtsi2sh_xxo64 := mkRow RVM None no_vex (EV LIG PF3 MAP5 W1 0x2A (TS 8) Er).
Definition r_vcvtusi2sh_xxo32 := mkRow RVM None no_vex (EV LIG PF3 MAP5 W0 0x7B (TS 4) Er).
Definition r_vcvtusi2sh_xxo64 := mkRow RVM None no_vex (EV LIG PF3 MAP5 W1 0x7B (TS 8) Er).
Definition r_vpmovwb_ox := mkRow MR None no_vex (EV Lxyz PF3 M0F38 W0 0x30 HVM NoRc).
Definition r_vpmovswb_ox := mkRow MR None no_vex (EV Lxyz PF3 M0F38 W0 0x20 HVM NoRc).
Definition r_vpmovuswb_ox := mkRow MR None no_vex (EV Lxyz PF3 M0F38 W0 0x10 HVM NoRc).
Definition r_vpmovdb_ox := mkRow MR None no_vex (EV Lxyz PF3 M0F38 W0 0x31 QVM NoRc).
Definition r_vpmovsdb_ox := mkRow MR None no_vex (EV Lxyz PF3 M0F38 W0 0x21 QVM NoRc).
Definition r_vpmovusdb_ox := mkRow MR None no_vex (EV Lxyz PF3 M0F38 W0 0x11 QVM NoRc).
Definition r_vpmovqb_ox := mkRow MR None no_vex (EV Lxyz PF3 M0F38 W0 0x32 OVM NoRc).
Definition r_vpmovsqb_ox := mkRow MR None no_vex (EV Lxyz PF3 M0F38 W0 0x22 OVM NoRc).
Definition r_vpmovusqb_ox := mkRow MR None no_vex (EV Lxyz PF3 M0F38 W0 0x12 OVM NoRc).
Definition r_vpmovdw_ox := mkRow MR None no_vex (EV Lxyz PF3 M0F38 W0 0x33 HVM NoRc).
Definition r_vpmovsdw_ox := mkRow MR None no_vex (EV Lxyz PF3 M0F38 W0 0x23 HVM NoRc).
Definition r_vpmovusdw_ox := mkRow MR None no_vex (EV Lxyz PF3 M0F38 W0 0x13 HVM NoRc).
Definition r_vpmovqw_ox := mkRow MR None no_vex (EV Lxyz PF3 M0F38 W0 0x34 QVM NoRc).
Definition r_vpmovsqw_ox := mkRow MR None no_vex (EV Lxyz PF3 M0F38 W0 0x24 QVM NoRc).
Definition r_vpmovusqw_ox := mkRow MR None no_vex (EV Lxyz PF3 M0F38 W0 0x14 QVM NoRc).
Definition r_vpmovqd_ox := mkRow MR None no_vex (EV Lxyz PF3 M0F38 W0 0x35 HVM NoRc).
Definition r_vpmovsqd_ox := mkRow MR None no_vex (EV Lxyz PF3 M0F38 W0 0x25 HVM NoRc).
Definition r_vpmovusqd_ox := mkRow MR None no_vex (EV Lxyz PF3 M0F38 W0 0x15 HVM NoRc).
Definition r_vpdpbusd_xxop := mkRow RVM None (V Lxy P66 M0F38 W0 0x50) (EV Lxyz P66 M0F38 W0 0x50 (FV 4) NoRc).
Definition r_vpdpbusds_xxop := mkRow RVM None (V Lxy P66 M0F38 W0 0x51) (EV Lxyz P66 M0F38 W0 0x51 (FV 4) NoRc).
Definition r_vpdpwssd_xxop := mkRow RVM None (V Lxy P66 M0F38 W0 0x52) (EV Lxyz P66 M0F38 W0 0x52 (FV 4) NoRc).
Definition r_vpdpwssds_xxop := mkRow RVM None (V Lxy P66 M0F38 W0 0x53) (EV Lxyz P66 M0F38 W0 0x53 (FV 4) NoRc).
Definition r_vpdpbssd_xxop := mkRow RVM None (V Lxy PF2 M0F38 W0 0x50) (EV Lxyz PF2 M0F38 W0 0x50 (FV 4) NoRc).
Definition r_vpdpbssds_xxop := mkRow RVM None (V Lxy PF2 M0F38 W0 0x51) (EV Lxyz PF2 M0F38 W0 0x51 (FV 4) NoRc).
Definition r_vpdpbsud_xxop := mkRow RVM None (V Lxy PF3 M0F38 W0 0x50) (EV Lxyz PF3 M0F38 W0 0x50 (FV 4) NoRc).
Definition r_vpdpbsuds_xxop := mkRow RVM None (V Lxy PF3 M0F38 W0 0x51) (EV Lxyz PF3 M0F38 W0 0x51 (FV 4) NoRc).
Definition r_vpdpbuud_xxop := mkRow RVM None (V Lxy NP M0F38 W0 0x50) (EV Lxyz NP M0F38 W0 0x50 (FV 4) NoRc).
Definition r_vpdpbuuds_xxop := mkRow RVM None (V Lxy NP M0F38 W0 0x51) (EV Lxyz NP M0F38 W0 0x51 (FV 4) NoRc).
Definition r_vpdpwsud_xxop := mkRow RVM None (V Lxy PF3 M0F38 W0 0xD2) (EV Lxyz PF3 M0F38 W0 0xD2 (FV 4) NoRc).
Definition r_vpdpwsuds_xxop := mkRow RVM None (V Lxy PF3 M0F38 W0 0xD3) (EV Lxyz PF3 M0F38 W0 0xD3 (FV 4) NoRc).
Definition r_vpdpwusd_xxop := mkRow RVM None (V Lxy P66 M0F38 W0 0xD2) (EV Lxyz P66 M0F38 W0 0xD2 (FV 4) NoRc).
Definition r_vpdpwusds_xxop := mkRow RVM None (V Lxy P66 M0F38 W0 0xD3) (EV Lxyz P66 M0F38 W0 0xD3 (FV 4) NoRc).
Definition r_vpdpwuud_xxop := mkRow RVM None (V Lxy NP M0F38 W0 0xD2) (EV Lxyz NP M0F38 W0 0xD2 (FV 4) NoRc).
Definition r_vpdpwuuds_xxop := mkRow RVM None (V Lxy NP M0F38 W0 0xD3) (EV Lxyz NP M0F38 W0 0xD3 (FV 4) NoRc).
Definition r_vmpsadbw_xxoip := mkRow RVMI None (V Lxy P66 M0F3A WIG 0x42) (EV Lxyz PF3 M0F3A W0 0x42 FVM NoRc).
Definition r_vgatherdps_xax := mkRow RMV None (V Lxy P66 M0F38 W0 0x92) no_evex.
Definition r_vgatherdps_xa := mkRow RM None no_vex (EV Lxyz P66 M0F38 W0 0x92 (TS 4) NoRc).
Definition r_vgatherdpd_xax := mkRow RMV None (V Lxy P66 M0F38 W1 0x92) no_evex.
Definition r_vgatherdpd_xa := mkRow RM None no_vex (EV Lxyz P66 M0F38 W1 0x92 (TS 8) NoRc).
Definition r_vgatherqps_xax := mkRow RMV None (V Lxy P66 M0F38 W0 0x93) no_evex.
Definition r_vgatherqps_xa := mkRow RM None no_vex (EV Lxyz P66 M0F38 W0 0x93 (TS 4) NoRc).
Definition r_vgatherqpd_xax := mkRow RMV None (V Lxy P66 M0F38 W1 0x93) no_evex.
Definition r_vgatherqpd_xa := mkRow RM None no_vex (EV Lxyz P66 M0F38 W1 0x93 (TS 8) NoRc).
Definition r_vpgatherdd_xax := mkRow RMV None (V Lxy P66 M0F38 W0 0x90) no_evex.
Definition r_vpgatherdd_xa := mkRow RM None no_vex (EV Lxyz P66 M0F38 W0 0x90 (TS 4) NoRc).
Definition r_vpgatherdq_xax := mkRow RMV None (V Lxy P66 M0F38 W1 0x90) no_evex.
Definition r_vpgatherdq_xa := mkRow RM None no_vex (EV Lxyz P66 M0F38 W1 0x90 (TS 8) NoRc).
Definition r_vpgatherqd_xax := mkRow RMV None (V Lxy P66 M0F38 W0 0x91) no_evex.
Definition r_vpgatherqd_xa := mkRow RM None no_vex (EV Lxyz P66 M0F38 W0 0x91 (TS 4) NoRc).
Definition r_vpgatherqq_xax := mkRow RMV None (V Lxy P66 M0F38 W1 0x91) no_evex.
Definition r_vpgatherqq_xa := mkRow RM None no_vex (EV Lxyz P66 M0F38 W1 0x91 (TS 8) NoRc).
Definition r_vscatterdps_ax := mkRow MR None no_vex (EV Lxyz P66 M0F38 W0 0xA2 (TS 4) NoRc).
Definition r_vscatterdpd_ax := mkRow MR None no_vex (EV Lxyz P66 M0F38 W1 0xA2 (TS 8) NoRc).
Definition r_vscatterqps_ax := mkRow MR None no_vex (EV Lxyz P66 M0F38 W0 0xA3 (TS 4) NoRc).
Definition r_vscatterqpd_ax := mkRow MR None no_vex (EV Lxyz P66 M0F38 W1 0xA3 (TS 8) NoRc).
Definition r_vpscatterdd_ax := mkRow MR None no_vex (EV Lxyz P66 M0F38 W0 0xA0 (TS 4) NoRc).
Definition r_vpscatterdq_ax := mkRow MR None no_vex (EV Lxyz P66 M0F38 W1 0xA0 (TS 8) NoRc).
Definition r_vpscatterqd_ax := mkRow MR None no_vex (EV Lxyz P66 M0F38 W0 0xA1 (TS 4) NoRc).
Definition r_vpscatterqq_ax := mkRow MR None no_vex (EV Lxyz P66 M0F38 W1 0xA1 (TS 8) NoRc).
Definition r_vgatherpf0dps_a := mkRow M_ (Some 1) no_vex (EV Lz P66 M0F38 W0 0xC6 (TS 4) NoRc).
Definition r_vgatherpf0qps_a := mkRow M_ (Some 1) no_vex (EV Lz P66 M0F38 W0 0xC7 (TS 4) NoRc).
Definition r_vgatherpf0dpd_a := mkRow M_ (Some 1) no_vex (EV Lz P66 M0F38 W1 0xC6 (TS 8) NoRc).
Definition r_vgatherpf0qpd_a := mkRow M_ (Some 1) no_vex (EV Lz P66 M0F38 W1 0xC7 (TS 8) NoRc).
Definition r_vgatherpf1dps_a := mkRow M_ (Some 2) no_vex (EV Lz P66 M0F38 W0 0xC6 (TS 4) NoRc).
Definition r_vgatherpf1qps_a := mkRow M_ (Some 2) no_vex (EV Lz P66 M0F38 W0 0xC7 (TS 4) NoRc).
Definition r_vgatherpf1dpd_a := mkRow M_ (Some 2) no_vex (EV Lz P66 M0F38 W1 0xC6 (TS 8) NoRc).
Definition r_vgatherpf1qpd_a := mkRow M_ (Some 2) no_vex (EV Lz P66 M0F38 W1 0xC7 (TS 8) NoRc).
Definition r_vscatterpf0dps_a := mkRow M_ (Some 5) no_vex (EV Lz P66 M0F38 W0 0xC6 (TS 4) NoRc).
Definition r_vscatterpf0qps_a := mkRow M_ (Some 5) no_vex (EV Lz P66 M0F38 W0 0xC7 (TS 4) NoRc).
Definition r_vscatterpf0dpd_a := mkRow M_ (Some 5) no_vex (EV Lz P66 M0F38 W1 0xC6 (TS 8) NoRc).
Definition r_vscatterpf0qpd_a := mkRow M_ (Some 5) no_vex (EV Lz P66 M0F38 W1 0xC7 (TS 8) NoRc).
Definition r_vscatterpf1dps_a := mkRow M_ (Some 6) no_vex (EV Lz P66 M0F38 W0 0xC6 (TS 4) NoRc).
Definition r_vscatterpf1qps_a := mkRow M_ (Some 6) no_vex (EV Lz P66 M0F38 W0 0xC7 (TS 4) NoRc).
Definition r_vscatterpf1dpd_a := mkRow M_ (Some 6) no_vex (EV Lz P66 M0F38 W1 0xC6 (TS 8) NoRc).
Definition r_vscatterpf1qpd_a := mkRow M_ (Some 6) no_vex (EV Lz P66 M0F38 W1 0xC7 (TS 8) NoRc).
Definition r_kaddb_kkk := mkRow RVM None (V L_1 P66 M0F W0 0x4A) no_evex.
Definition r_kaddw_kkk := mkRow RVM None (V L_1 NP M0F W0 0x4A) no_evex.
Definition r_kaddd_kkk := mkRow RVM None (V L_1 P66 M0F W1 0x4A) no_evex.
Definition r_kaddq_kkk := mkRow RVM None (V L_1 NP M0F W1 0x4A) no_evex.
Definition r_kandb_kkk := mkRow RVM None (V L_1 P66 M0F W0 0x41) no_evex.
Definition r_kandw_kkk := mkRow RVM None (V L_1 NP M0F W0 0x41) no_evex.
Definition r_kandd_kkk := mkRow RVM None (V L_1 P66 M0F W1 0x41) no_evex.
Definition r_kandq_kkk := mkRow RVM None (V L_1 NP M0F W1 0x41) no_evex.
Definition r_kandnb_kkk := mkRow RVM None (V L_1 P66 M0F W0 0x42) no_evex.
Definition r_kandnw_kkk := mkRow RVM None (V L_1 NP M0F W0 0x42) no_evex.
Definition r_kandnd_kkk := mkRow RVM None (V L_1 P66 M0F W1 0x42) no_evex.
Definition r_kandnq_kkk := mkRow RVM None (V L_1 NP M0F W1 0x42) no_evex.
Definition r_korb_kkk := mkRow RVM None (V L_1 P66 M0F W0 0x45) no_evex.
Definition r_korw_kkk := mkRow RVM None (V L_1 NP M0F W0 0x45) no_evex.
Definition r_kord_kkk := mkRow RVM None (V L_1 P66 M0F W1 0x45) no_evex.
Definition r_korq_kkk := mkRow RVM None (V L_1 NP M0F W1 0x45) no_evex.
Definition r_kxnorb_kkk := mkRow RVM None (V L_1 P66 M0F W0 0x46) no_evex.
Definition r_kxnorw_kkk := mkRow RVM None (V L_1 NP M0F W0 0x46) no_evex.
Definition r_kxnord_kkk := mkRow RVM None (V L_1 P66 M0F W1 0x46) no_evex.
Definition r_kxnorq_kkk := mkRow RVM None (V L_1 NP M0F W1 0x46) no_evex.
Definition r_kxorb_kkk := mkRow RVM None (V L_1 P66 M0F W0 0x47) no_evex.
Definition r_kxorw_kkk := mkRow RVM None (V L_1 NP M0F W0 0x47) no_evex.
Definition r_kxord_kkk := mkRow RVM None (V L_1 P66 M0F W1 0x47) no_evex.
Definition r_kxorq_kkk := mkRow RVM None (V L_1 NP M0F W1 0x47) no_evex.
Definition r_knotb_kk := mkRow RM None (V L_0 P66 M0F W0 0x44) no_evex.
Definition r_knotw_kk := mkRow RM None (V L_0 NP M0F W0 0x44) no_evex.
Definition r_knotd_kk := mkRow RM None (V L_0 P66 M0F W1 0x44) no_evex.
Definition r_knotq_kk := mkRow RM None (V L_0 NP M0F W1 0x44) no_evex.
Definition r_kortestb_kk := mkRow RM None (V L_0 P66 M0F W0 0x98) no_evex.
Definition r_kortestw_kk := mkRow RM None (V L_0 NP M0F W0 0x98) no_evex.
Definition r_kortestd_kk := mkRow RM None (V L_0 P66 M0F W1 0x98) no_evex.
Definition r_kortestq_kk := mkRow RM None (V L_0 NP M0F W1 0x98) no_evex.
Definition r_ktestb_kk := mkRow RM None (V L_0 P66 M0F W0 0x99) no_evex.
Definition r_ktestw_kk := mkRow RM None (V L_0 NP M0F W0 0x99) no_evex.
Definition r_ktestd_kk := mkRow RM None (V L_0 P66 M0F W1 0x99) no_evex.
Definition r_ktestq_kk := mkRow RM None (V L_0 NP M0F W1 0x99) no_evex.
Definition r_kshiftlb_kki := mkRow RMI None (V L_0 P66 M0F3A W0 0x32) no_evex.
Definition r_kshiftlw_kki := mkRow RMI None (V L_0 P66 M0F3A W1 0x32) no_evex.
Definition r_kshiftld_kki := mkRow RMI None (V L_0 P66 M0F3A W0 0x33) no_evex.
Definition r_kshiftlq_kki := mkRow RMI None (V L_0 P66 M0F3A W1 0x33) no_evex.
Definition r_kshiftrb_kki := mkRow RMI None (V L_0 P66 M0F3A W0 0x30) no_evex.
Definition r_kshiftrw_kki := mkRow RMI None (V L_0 P66 M0F3A W1 0x30) no_evex.
Definition r_kshiftrd_kki := mkRow RMI None (V L_0 P66 M0F3A W0 0x31) no_evex.
Definition r_kshiftrq_kki := mkRow RMI None (V L_0 P66 M0F3A W1 0x31) no_evex.
Definition r_kunpckbw_kkk := mkRow RVM None (V L_1 P66 M0F W0 0x4B) no_evex.
Definition r_kunpckwd_kkk := mkRow RVM None (V L_1 NP M0F W0 0x4B) no_evex.
Definition r_kunpckdq_kkk := mkRow RVM None (V L_1 NP M0F W1 0x4B) no_evex.
Definition r_tilezero_t := mkRow R_ None (V L_0 PF2 M0F38 W0 0x49) no_evex.
Definition r_tdpbssd_ttt := mkRow RMV None (V L_0 PF2 M0F38 W0 0x5E) no_evex.
Definition r_tdpbsud_ttt := mkRow RMV None (V L_0 PF3 M0F38 W0 0x5E) no_evex.
Definition r_tdpbusd_ttt := mkRow RMV None (V L_0 P66 M0F38 W0 0x5E) no_evex.
Definition r_tdpbuud_ttt := mkRow RMV None (V L_0 NP M0F38 W0 0x5E) no_evex.
Definition r_tdpfp16ps_ttt := mkRow RMV None (V L_0 PF2 M0F38 W0 0x5C) no_evex.
Definition r_tdpbf16ps_ttt := mkRow RMV None (V L_0 PF3 M0F38 W0 0x5C) no_evex.
