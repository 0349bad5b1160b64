(* The vector instructions whose execution is specified: name in the table of methods, row of IsaRows.v, meaning.
   From the Intel SDM vol. 2; written by tools/vectab.py. *)
From Coq Require Import ZArith List String.
From Verif Require Import SpecIsa IsaRows SpecExec SpecVec.
Import ListNotations.
Open Scope string_scope.
Open Scope list_scope.
Open Scope Z_scope.
Definition vec_isa : list (string * vrow * meaning) := [
  ("vaddps/xoo", r_vaddps_xoo, MLane (Fp FAdd) 32);
  ("vaddpd/xoo", r_vaddpd_xoo, MLane (Fp FAdd) 64);
  ("vaddph/xoo", r_vaddph_xoo, MLane (Fp FAdd) 16);
  ("vaddss/xoo", r_vaddss_xoo, MScalar (Fp FAdd) 32);
  ("vaddsd/xoo", r_vaddsd_xoo, MScalar (Fp FAdd) 64);
  ("vaddsh/xoo", r_vaddsh_xoo, MScalar (Fp FAdd) 16);
  ("vsubps/xoo", r_vsubps_xoo, MLane (Fp FSub) 32);
  ("vsubpd/xoo", r_vsubpd_xoo, MLane (Fp FSub) 64);
  ("vsubph/xoo", r_vsubph_xoo, MLane (Fp FSub) 16);
  ("vsubss/xoo", r_vsubss_xoo, MScalar (Fp FSub) 32);
  ("vsubsd/xoo", r_vsubsd_xoo, MScalar (Fp FSub) 64);
  ("vsubsh/xoo", r_vsubsh_xoo, MScalar (Fp FSub) 16);
  ("vmulps/xoo", r_vmulps_xoo, MLane (Fp FMul) 32);
  ("vmulpd/xoo", r_vmulpd_xoo, MLane (Fp FMul) 64);
  ("vmulph/xoo", r_vmulph_xoo, MLane (Fp FMul) 16);
  ("vmulss/xoo", r_vmulss_xoo, MScalar (Fp FMul) 32);
  ("vmulsd/xoo", r_vmulsd_xoo, MScalar (Fp FMul) 64);
  ("vmulsh/xoo", r_vmulsh_xoo, MScalar (Fp FMul) 16);
  ("vdivps/xoo", r_vdivps_xoo, MLane (Fp FDiv) 32);
  ("vdivpd/xoo", r_vdivpd_xoo, MLane (Fp FDiv) 64);
  ("vdivph/xoo", r_vdivph_xoo, MLane (Fp FDiv) 16);
  ("vdivss/xoo", r_vdivss_xoo, MScalar (Fp FDiv) 32);
  ("vdivsd/xoo", r_vdivsd_xoo, MScalar (Fp FDiv) 64);
  ("vdivsh/xoo", r_vdivsh_xoo, MScalar (Fp FDiv) 16);
  ("vminps/xoo", r_vminps_xoo, MLane (Fp FMin) 32);
  ("vminpd/xoo", r_vminpd_xoo, MLane (Fp FMin) 64);
  ("vminph/xoo", r_vminph_xoo, MLane (Fp FMin) 16);
  ("vminss/xoo", r_vminss_xoo, MScalar (Fp FMin) 32);
  ("vminsd/xoo", r_vminsd_xoo, MScalar (Fp FMin) 64);
  ("vminsh/xoo", r_vminsh_xoo, MScalar (Fp FMin) 16);
  ("vmaxps/xoo", r_vmaxps_xoo, MLane (Fp FMax) 32);
  ("vmaxpd/xoo", r_vmaxpd_xoo, MLane (Fp FMax) 64);
  ("vmaxph/xoo", r_vmaxph_xoo, MLane (Fp FMax) 16);
  ("vmaxss/xoo", r_vmaxss_xoo, MScalar (Fp FMax) 32);
  ("vmaxsd/xoo", r_vmaxsd_xoo, MScalar (Fp FMax) 64);
  ("vmaxsh/xoo", r_vmaxsh_xoo, MScalar (Fp FMax) 16);
  ("vandps/xoo", r_vandps_xoo, MLane And 32);
  ("vandpd/xoo", r_vandpd_xoo, MLane And 64);
  ("vpand/xxo", r_vpand_xxo, MLane And 64);
  ("vpandd/xxo", r_vpandd_xxo, MLane And 32);
  ("vpandq/xxo", r_vpandq_xxo, MLane And 64);
  ("vandnps/xoo", r_vandnps_xoo, MLane Andn 32);
  ("vandnpd/xoo", r_vandnpd_xoo, MLane Andn 64);
  ("vpandn/xxo", r_vpandn_xxo, MLane Andn 64);
  ("vpandnd/xxo", r_vpandnd_xxo, MLane Andn 32);
  ("vpandnq/xxo", r_vpandnq_xxo, MLane Andn 64);
  ("vorps/xoo", r_vorps_xoo, MLane Or 32);
  ("vorpd/xoo", r_vorpd_xoo, MLane Or 64);
  ("vpor/xxo", r_vpor_xxo, MLane Or 64);
  ("vpord/xxo", r_vpord_xxo, MLane Or 32);
  ("vporq/xxo", r_vporq_xxo, MLane Or 64);
  ("vxorps/xoo", r_vxorps_xoo, MLane Xor 32);
  ("vxorpd/xoo", r_vxorpd_xoo, MLane Xor 64);
  ("vpxor/xxo", r_vpxor_xxo, MLane Xor 64);
  ("vpxord/xxo", r_vpxord_xxo, MLane Xor 32);
  ("vpxorq/xxo", r_vpxorq_xxo, MLane Xor 64);
  ("vfmadd132ps/xxo", r_vfmadd132ps_xxo, MLane (Fp132 FMadd) 32);
  ("vfmadd132pd/xxo", r_vfmadd132pd_xxo, MLane (Fp132 FMadd) 64);
  ("vfmadd132ph/xxo", r_vfmadd132ph_xxo, MLane (Fp132 FMadd) 16);
  ("vfmadd132ss/xxo", r_vfmadd132ss_xxo, MScalar (Fp132 FMadd) 32);
  ("vfmadd132sd/xxo", r_vfmadd132sd_xxo, MScalar (Fp132 FMadd) 64);
  ("vfmadd132sh/xxo", r_vfmadd132sh_xxo, MScalar (Fp132 FMadd) 16);
  ("vfmadd213ps/xxo", r_vfmadd213ps_xxo, MLane (Fp213 FMadd) 32);
  ("vfmadd213pd/xxo", r_vfmadd213pd_xxo, MLane (Fp213 FMadd) 64);
  ("vfmadd213ph/xxo", r_vfmadd213ph_xxo, MLane (Fp213 FMadd) 16);
  ("vfmadd213ss/xxo", r_vfmadd213ss_xxo, MScalar (Fp213 FMadd) 32);
  ("vfmadd213sd/xxo", r_vfmadd213sd_xxo, MScalar (Fp213 FMadd) 64);
  ("vfmadd213sh/xxo", r_vfmadd213sh_xxo, MScalar (Fp213 FMadd) 16);
  ("vfmadd231ps/xxo", r_vfmadd231ps_xxo, MLane (Fp231 FMadd) 32);
  ("vfmadd231pd/xxo", r_vfmadd231pd_xxo, MLane (Fp231 FMadd) 64);
  ("vfmadd231ph/xxo", r_vfmadd231ph_xxo, MLane (Fp231 FMadd) 16);
  ("vfmadd231ss/xxo", r_vfmadd231ss_xxo, MScalar (Fp231 FMadd) 32);
  ("vfmadd231sd/xxo", r_vfmadd231sd_xxo, MScalar (Fp231 FMadd) 64);
  ("vfmadd231sh/xxo", r_vfmadd231sh_xxo, MScalar (Fp231 FMadd) 16);
  ("vfmsub132ps/xxo", r_vfmsub132ps_xxo, MLane (Fp132 FMsub) 32);
  ("vfmsub132pd/xxo", r_vfmsub132pd_xxo, MLane (Fp132 FMsub) 64);
  ("vfmsub132ph/xxo", r_vfmsub132ph_xxo, MLane (Fp132 FMsub) 16);
  ("vfmsub132ss/xxo", r_vfmsub132ss_xxo, MScalar (Fp132 FMsub) 32);
  ("vfmsub132sd/xxo", r_vfmsub132sd_xxo, MScalar (Fp132 FMsub) 64);
  ("vfmsub132sh/xxo", r_vfmsub132sh_xxo, MScalar (Fp132 FMsub) 16);
  ("vfmsub213ps/xxo", r_vfmsub213ps_xxo, MLane (Fp213 FMsub) 32);
  ("vfmsub213pd/xxo", r_vfmsub213pd_xxo, MLane (Fp213 FMsub) 64);
  ("vfmsub213ph/xxo", r_vfmsub213ph_xxo, MLane (Fp213 FMsub) 16);
  ("vfmsub213ss/xxo", r_vfmsub213ss_xxo, MScalar (Fp213 FMsub) 32);
  ("vfmsub213sd/xxo", r_vfmsub213sd_xxo, MScalar (Fp213 FMsub) 64);
  ("vfmsub213sh/xxo", r_vfmsub213sh_xxo, MScalar (Fp213 FMsub) 16);
  ("vfmsub231ps/xxo", r_vfmsub231ps_xxo, MLane (Fp231 FMsub) 32);
  ("vfmsub231pd/xxo", r_vfmsub231pd_xxo, MLane (Fp231 FMsub) 64);
  ("vfmsub231ph/xxo", r_vfmsub231ph_xxo, MLane (Fp231 FMsub) 16);
  ("vfmsub231ss/xxo", r_vfmsub231ss_xxo, MScalar (Fp231 FMsub) 32);
  ("vfmsub231sd/xxo", r_vfmsub231sd_xxo, MScalar (Fp231 FMsub) 64);
  ("vfmsub231sh/xxo", r_vfmsub231sh_xxo, MScalar (Fp231 FMsub) 16);
  ("vfnmadd132ps/xxo", r_vfnmadd132ps_xxo, MLane (Fp132 FNmadd) 32);
  ("vfnmadd132pd/xxo", r_vfnmadd132pd_xxo, MLane (Fp132 FNmadd) 64);
  ("vfnmadd132ph/xxo", r_vfnmadd132ph_xxo, MLane (Fp132 FNmadd) 16);
  ("vfnmadd132ss/xxo", r_vfnmadd132ss_xxo, MScalar (Fp132 FNmadd) 32);
  ("vfnmadd132sd/xxo", r_vfnmadd132sd_xxo, MScalar (Fp132 FNmadd) 64);
  ("vfnmadd132sh/xxo", r_vfnmadd132sh_xxo, MScalar (Fp132 FNmadd) 16);
  ("vfnmadd213ps/xxo", r_vfnmadd213ps_xxo, MLane (Fp213 FNmadd) 32);
  ("vfnmadd213pd/xxo", r_vfnmadd213pd_xxo, MLane (Fp213 FNmadd) 64);
  ("vfnmadd213ph/xxo", r_vfnmadd213ph_xxo, MLane (Fp213 FNmadd) 16);
  ("vfnmadd213ss/xxo", r_vfnmadd213ss_xxo, MScalar (Fp213 FNmadd) 32);
  ("vfnmadd213sd/xxo", r_vfnmadd213sd_xxo, MScalar (Fp213 FNmadd) 64);
  ("vfnmadd213sh/xxo", r_vfnmadd213sh_xxo, MScalar (Fp213 FNmadd) 16);
  ("vfnmadd231ps/xxo", r_vfnmadd231ps_xxo, MLane (Fp231 FNmadd) 32);
  ("vfnmadd231pd/xxo", r_vfnmadd231pd_xxo, MLane (Fp231 FNmadd) 64);
  ("vfnmadd231ph/xxo", r_vfnmadd231ph_xxo, MLane (Fp231 FNmadd) 16);
  ("vfnmadd231ss/xxo", r_vfnmadd231ss_xxo, MScalar (Fp231 FNmadd) 32);
  ("vfnmadd231sd/xxo", r_vfnmadd231sd_xxo, MScalar (Fp231 FNmadd) 64);
  ("vfnmadd231sh/xxo", r_vfnmadd231sh_xxo, MScalar (Fp231 FNmadd) 16);
  ("vfnmsub132ps/xxo", r_vfnmsub132ps_xxo, MLane (Fp132 FNmsub) 32);
  ("vfnmsub132pd/xxo", r_vfnmsub132pd_xxo, MLane (Fp132 FNmsub) 64);
  ("vfnmsub132ph/xxo", r_vfnmsub132ph_xxo, MLane (Fp132 FNmsub) 16);
  ("vfnmsub132ss/xxo", r_vfnmsub132ss_xxo, MScalar (Fp132 FNmsub) 32);
  ("vfnmsub132sd/xxo", r_vfnmsub132sd_xxo, MScalar (Fp132 FNmsub) 64);
  ("vfnmsub132sh/xxo", r_vfnmsub132sh_xxo, MScalar (Fp132 FNmsub) 16);
  ("vfnmsub213ps/xxo", r_vfnmsub213ps_xxo, MLane (Fp213 FNmsub) 32);
  ("vfnmsub213pd/xxo", r_vfnmsub213pd_xxo, MLane (Fp213 FNmsub) 64);
  ("vfnmsub213ph/xxo", r_vfnmsub213ph_xxo, MLane (Fp213 FNmsub) 16);
  ("vfnmsub213ss/xxo", r_vfnmsub213ss_xxo, MScalar (Fp213 FNmsub) 32);
  ("vfnmsub213sd/xxo", r_vfnmsub213sd_xxo, MScalar (Fp213 FNmsub) 64);
  ("vfnmsub213sh/xxo", r_vfnmsub213sh_xxo, MScalar (Fp213 FNmsub) 16);
  ("vfnmsub231ps/xxo", r_vfnmsub231ps_xxo, MLane (Fp231 FNmsub) 32);
  ("vfnmsub231pd/xxo", r_vfnmsub231pd_xxo, MLane (Fp231 FNmsub) 64);
  ("vfnmsub231ph/xxo", r_vfnmsub231ph_xxo, MLane (Fp231 FNmsub) 16);
  ("vfnmsub231ss/xxo", r_vfnmsub231ss_xxo, MScalar (Fp231 FNmsub) 32);
  ("vfnmsub231sd/xxo", r_vfnmsub231sd_xxo, MScalar (Fp231 FNmsub) 64);
  ("vfnmsub231sh/xxo", r_vfnmsub231sh_xxo, MScalar (Fp231 FNmsub) 16);
  ("vsqrtss/xxo", r_vsqrtss_xxo, MScalar (Fp2 FSqrt) 32);
  ("vgetexpss/xxo", r_vgetexpss_xxo, MScalar (Fp2 FGetexp) 32);
  ("vgetmantss/xxoi", r_vgetmantss_xxoi, MScalar (Fp2I FGetmant) 32);
  ("vreducess/xxoi", r_vreducess_xxoi, MScalar (Fp2I FReduce) 32);
  ("vrndscaless/xxoi", r_vrndscaless_xxoi, MScalar (Fp2I FRndscale) 32);
  ("vsqrtsd/xxo", r_vsqrtsd_xxo, MScalar (Fp2 FSqrt) 64);
  ("vgetexpsd/xxo", r_vgetexpsd_xxo, MScalar (Fp2 FGetexp) 64);
  ("vgetmantsd/xxoi", r_vgetmantsd_xxoi, MScalar (Fp2I FGetmant) 64);
  ("vreducesd/xxoi", r_vreducesd_xxoi, MScalar (Fp2I FReduce) 64);
  ("vrndscalesd/xxoi", r_vrndscalesd_xxoi, MScalar (Fp2I FRndscale) 64);
  ("vsqrtsh/xxo", r_vsqrtsh_xxo, MScalar (Fp2 FSqrt) 16);
  ("vgetexpsh/xxo", r_vgetexpsh_xxo, MScalar (Fp2 FGetexp) 16);
  ("vgetmantsh/xxoi", r_vgetmantsh_xxoi, MScalar (Fp2I FGetmant) 16);
  ("vreducesh/xxoi", r_vreducesh_xxoi, MScalar (Fp2I FReduce) 16);
  ("vrndscalesh/xxoi", r_vrndscalesh_xxoi, MScalar (Fp2I FRndscale) 16);
  ("vsqrtps/xo", r_vsqrtps_xo, MLane (Fp FSqrt) 32);
  ("vgetexpps/xo", r_vgetexpps_xo, MLane (Fp FGetexp) 32);
  ("vgetmantps/xoi", r_vgetmantps_xoi, MLane (FpI FGetmant) 32);
  ("vreduceps/xoi", r_vreduceps_xoi, MLane (FpI FReduce) 32);
  ("vrndscaleps/xoi", r_vrndscaleps_xoi, MLane (FpI FRndscale) 32);
  ("vcmpps/kxoi", r_vcmpps_kxoi, MCmp (FpI FCmp) 32);
  ("vsqrtpd/xo", r_vsqrtpd_xo, MLane (Fp FSqrt) 64);
  ("vgetexppd/xo", r_vgetexppd_xo, MLane (Fp FGetexp) 64);
  ("vgetmantpd/xoi", r_vgetmantpd_xoi, MLane (FpI FGetmant) 64);
  ("vreducepd/xoi", r_vreducepd_xoi, MLane (FpI FReduce) 64);
  ("vrndscalepd/xoi", r_vrndscalepd_xoi, MLane (FpI FRndscale) 64);
  ("vcmppd/kxoi", r_vcmppd_kxoi, MCmp (FpI FCmp) 64);
  ("vsqrtph/xo", r_vsqrtph_xo, MLane (Fp FSqrt) 16);
  ("vgetexpph/xo", r_vgetexpph_xo, MLane (Fp FGetexp) 16);
  ("vgetmantph/xoi", r_vgetmantph_xoi, MLane (FpI FGetmant) 16);
  ("vreduceph/xoi", r_vreduceph_xoi, MLane (FpI FReduce) 16);
  ("vrndscaleph/xoi", r_vrndscaleph_xoi, MLane (FpI FRndscale) 16);
  ("vcmpph/kxoi", r_vcmpph_kxoi, MCmp (FpI FCmp) 16);
  ("vcmpps/xxoi", r_vcmpps_xxoi, MLane (FpI FCmp) 32);
  ("vrangeps/xxoi", r_vrangeps_xxoi, MLane (FpI FRange) 32);
  ("vrcp14ps/xo", r_vrcp14ps_xo, MLane (Fp FRcp14) 32);
  ("vrsqrt14ps/xo", r_vrsqrt14ps_xo, MLane (Fp FRsqrt14) 32);
  ("vroundps/xoi", r_vroundps_xoi, MLane (FpI FRound) 32);
  ("vcmppd/xxoi", r_vcmppd_xxoi, MLane (FpI FCmp) 64);
  ("vrangepd/xxoi", r_vrangepd_xxoi, MLane (FpI FRange) 64);
  ("vrcp14pd/xo", r_vrcp14pd_xo, MLane (Fp FRcp14) 64);
  ("vrsqrt14pd/xo", r_vrsqrt14pd_xo, MLane (Fp FRsqrt14) 64);
  ("vroundpd/xoi", r_vroundpd_xoi, MLane (FpI FRound) 64);
  ("vcmpss/xxoi", r_vcmpss_xxoi, MScalar (FpI FCmp) 32);
  ("vrangess/xxoi", r_vrangess_xxoi, MScalar (FpI FRange) 32);
  ("vrcp14ss/xxo", r_vrcp14ss_xxo, MScalar (Fp2 FRcp14) 32);
  ("vrsqrt14ss/xxo", r_vrsqrt14ss_xxo, MScalar (Fp2 FRsqrt14) 32);
  ("vroundss/xxoi", r_vroundss_xxoi, MScalar (Fp2I FRound) 32);
  ("vcmpsd/xxoi", r_vcmpsd_xxoi, MScalar (FpI FCmp) 64);
  ("vrangesd/xxoi", r_vrangesd_xxoi, MScalar (FpI FRange) 64);
  ("vrcp14sd/xxo", r_vrcp14sd_xxo, MScalar (Fp2 FRcp14) 64);
  ("vrsqrt14sd/xxo", r_vrsqrt14sd_xxo, MScalar (Fp2 FRsqrt14) 64);
  ("vroundsd/xxoi", r_vroundsd_xxoi, MScalar (Fp2I FRound) 64);
  ("vrcpps/xo", r_vrcpps_xo, MLane (Fp FRcp) 32);
  ("vrcpss/xxo", r_vrcpss_xxo, MScalar (Fp2 FRcp) 32);
  ("vrcpph/xo", r_vrcpph_xo, MLane (Fp FRcp) 16);
  ("vrcpsh/xxo", r_vrcpsh_xxo, MScalar (Fp2 FRcp) 16);
  ("vrsqrtps/xo", r_vrsqrtps_xo, MLane (Fp FRsqrt) 32);
  ("vrsqrtss/xxo", r_vrsqrtss_xxo, MScalar (Fp2 FRsqrt) 32);
  ("vrsqrtph/xo", r_vrsqrtph_xo, MLane (Fp FRsqrt) 16);
  ("vrsqrtsh/xxo", r_vrsqrtsh_xxo, MScalar (Fp2 FRsqrt) 16);
  ("vscalefps/xxo", r_vscalefps_xxo, MLane (Fp FScalef) 32);
  ("vscalefpd/xxo", r_vscalefpd_xxo, MLane (Fp FScalef) 64);
  ("vscalefss/xxo", r_vscalefss_xxo, MScalar (Fp FScalef) 32);
  ("vscalefsd/xxo", r_vscalefsd_xxo, MScalar (Fp FScalef) 64);
  ("vscalefph/xxo", r_vscalefph_xxo, MLane (Fp FScalef) 16);
  ("vscalefsh/xxo", r_vscalefsh_xxo, MScalar (Fp FScalef) 16);
  ("vcvtdq2ps/xo", r_vcvtdq2ps_xo, MLane (Fp FOfS) 32);
  ("vcvtudq2ps/xo", r_vcvtudq2ps_xo, MLane (Fp FOfU) 32);
  ("vcvtps2dq/xo", r_vcvtps2dq_xo, MLane (Fp FToS) 32);
  ("vcvtps2udq/xo", r_vcvtps2udq_xo, MLane (Fp FToU) 32);
  ("vcvttps2dq/xo", r_vcvttps2dq_xo, MLane (Fp FTruncS) 32);
  ("vcvttps2udq/xo", r_vcvttps2udq_xo, MLane (Fp FTruncU) 32);
  ("vcvtqq2pd/xo", r_vcvtqq2pd_xo, MLane (Fp FOfS) 64);
  ("vcvtuqq2pd/xo", r_vcvtuqq2pd_xo, MLane (Fp FOfU) 64);
  ("vcvtpd2qq/xo", r_vcvtpd2qq_xo, MLane (Fp FToS) 64);
  ("vcvtpd2uqq/xo", r_vcvtpd2uqq_xo, MLane (Fp FToU) 64);
  ("vcvttpd2qq/xo", r_vcvttpd2qq_xo, MLane (Fp FTruncS) 64);
  ("vcvttpd2uqq/xo", r_vcvttpd2uqq_xo, MLane (Fp FTruncU) 64);
  ("vcvtw2ph/xo", r_vcvtw2ph_xo, MLane (Fp FOfS) 16);
  ("vcvtuw2ph/xo", r_vcvtuw2ph_xo, MLane (Fp FOfU) 16);
  ("vcvtph2w/xo", r_vcvtph2w_xo, MLane (Fp FToS) 16);
  ("vcvtph2uw/xo", r_vcvtph2uw_xo, MLane (Fp FToU) 16);
  ("vcvttph2w/xo", r_vcvttph2w_xo, MLane (Fp FTruncS) 16);
  ("vcvttph2uw/xo", r_vcvttph2uw_xo, MLane (Fp FTruncU) 16);
  ("vpaddb/xxo", r_vpaddb_xxo, MLane Add 8);
  ("vpsubb/xxo", r_vpsubb_xxo, MLane Sub 8);
  ("vpmaxsb/xxo", r_vpmaxsb_xxo, MLane Maxs 8);
  ("vpminsb/xxo", r_vpminsb_xxo, MLane Mins 8);
  ("vpmaxub/xxo", r_vpmaxub_xxo, MLane Maxu 8);
  ("vpminub/xxo", r_vpminub_xxo, MLane Minu 8);
  ("vpcmpeqb/xxo", r_vpcmpeqb_xxo, MLane Eq 8);
  ("vpcmpgtb/xxo", r_vpcmpgtb_xxo, MLane Gts 8);
  ("vpcmpeqb/kxo", r_vpcmpeqb_kxo, MCmp Eq 8);
  ("vpcmpgtb/kxo", r_vpcmpgtb_kxo, MCmp Gts 8);
  ("vpcmpb/kxoi", r_vpcmpb_kxoi, MCmp CmpS 8);
  ("vpcmpub/kxoi", r_vpcmpub_kxoi, MCmp CmpU 8);
  ("vptestmb/kxo", r_vptestmb_kxo, MCmp And 8);
  ("vptestnmb/kxo", r_vptestnmb_kxo, MCmp Testn 8);
  ("vpabsb/xo", r_vpabsb_xo, MLane Abs 8);
  ("vpopcntb/xo", r_vpopcntb_xo, MLane Popcnt 8);
  ("vpbroadcastb/xo", r_vpbroadcastb_xo, MSplat 8 8);
  ("vpermi2b/xxo", r_vpermi2b_xxo, MPerm2 false 8);
  ("vpermt2b/xxo", r_vpermt2b_xxo, MPerm2 true 8);
  ("vpsignb/xxo", r_vpsignb_xxo, MLane Sign 8);
  ("vpaddsb/xxo", r_vpaddsb_xxo, MLane Adds 8);
  ("vpaddusb/xxo", r_vpaddusb_xxo, MLane Addus 8);
  ("vpsubsb/xxo", r_vpsubsb_xxo, MLane Subs 8);
  ("vpsubusb/xxo", r_vpsubusb_xxo, MLane Subus 8);
  ("vpavgb/xxo", r_vpavgb_xxo, MLane Avg 8);
  ("vpermb/xxo", r_vpermb_xxo, MPerm 8);
  ("vpaddw/xxo", r_vpaddw_xxo, MLane Add 16);
  ("vpsubw/xxo", r_vpsubw_xxo, MLane Sub 16);
  ("vpmaxsw/xxo", r_vpmaxsw_xxo, MLane Maxs 16);
  ("vpminsw/xxo", r_vpminsw_xxo, MLane Mins 16);
  ("vpmaxuw/xxo", r_vpmaxuw_xxo, MLane Maxu 16);
  ("vpminuw/xxo", r_vpminuw_xxo, MLane Minu 16);
  ("vpcmpeqw/xxo", r_vpcmpeqw_xxo, MLane Eq 16);
  ("vpcmpgtw/xxo", r_vpcmpgtw_xxo, MLane Gts 16);
  ("vpcmpeqw/kxo", r_vpcmpeqw_kxo, MCmp Eq 16);
  ("vpcmpgtw/kxo", r_vpcmpgtw_kxo, MCmp Gts 16);
  ("vpcmpw/kxoi", r_vpcmpw_kxoi, MCmp CmpS 16);
  ("vpcmpuw/kxoi", r_vpcmpuw_kxoi, MCmp CmpU 16);
  ("vptestmw/kxo", r_vptestmw_kxo, MCmp And 16);
  ("vptestnmw/kxo", r_vptestnmw_kxo, MCmp Testn 16);
  ("vpabsw/xo", r_vpabsw_xo, MLane Abs 16);
  ("vpopcntw/xo", r_vpopcntw_xo, MLane Popcnt 16);
  ("vpbroadcastw/xo", r_vpbroadcastw_xo, MSplat 16 16);
  ("vpermi2w/xxo", r_vpermi2w_xxo, MPerm2 false 16);
  ("vpermt2w/xxo", r_vpermt2w_xxo, MPerm2 true 16);
  ("vpsignw/xxo", r_vpsignw_xxo, MLane Sign 16);
  ("vpaddsw/xxo", r_vpaddsw_xxo, MLane Adds 16);
  ("vpaddusw/xxo", r_vpaddusw_xxo, MLane Addus 16);
  ("vpsubsw/xxo", r_vpsubsw_xxo, MLane Subs 16);
  ("vpsubusw/xxo", r_vpsubusw_xxo, MLane Subus 16);
  ("vpavgw/xxo", r_vpavgw_xxo, MLane Avg 16);
  ("vpermw/xxo", r_vpermw_xxo, MPerm 16);
  ("vpsllvw/xxo", r_vpsllvw_xxo, MLane Shlv 16);
  ("vpsrlvw/xxo", r_vpsrlvw_xxo, MLane Shrv 16);
  ("vpsravw/xxo", r_vpsravw_xxo, MLane Sarv 16);
  ("vpmullw/xxo", r_vpmullw_xxo, MLane Mullo 16);
  ("vpshldvw/xxo", r_vpshldvw_xxo, MLane Shldv 16);
  ("vpshrdvw/xxo", r_vpshrdvw_xxo, MLane Shrdv 16);
  ("vpshldw/xxoi", r_vpshldw_xxoi, MLane Shldi 16);
  ("vpshrdw/xxoi", r_vpshrdw_xxoi, MLane Shrdi 16);
  ("vpaddd/xxo", r_vpaddd_xxo, MLane Add 32);
  ("vpsubd/xxo", r_vpsubd_xxo, MLane Sub 32);
  ("vpmaxsd/xxo", r_vpmaxsd_xxo, MLane Maxs 32);
  ("vpminsd/xxo", r_vpminsd_xxo, MLane Mins 32);
  ("vpmaxud/xxo", r_vpmaxud_xxo, MLane Maxu 32);
  ("vpminud/xxo", r_vpminud_xxo, MLane Minu 32);
  ("vpcmpeqd/xxo", r_vpcmpeqd_xxo, MLane Eq 32);
  ("vpcmpgtd/xxo", r_vpcmpgtd_xxo, MLane Gts 32);
  ("vpcmpeqd/kxo", r_vpcmpeqd_kxo, MCmp Eq 32);
  ("vpcmpgtd/kxo", r_vpcmpgtd_kxo, MCmp Gts 32);
  ("vpcmpd/kxoi", r_vpcmpd_kxoi, MCmp CmpS 32);
  ("vpcmpud/kxoi", r_vpcmpud_kxoi, MCmp CmpU 32);
  ("vptestmd/kxo", r_vptestmd_kxo, MCmp And 32);
  ("vptestnmd/kxo", r_vptestnmd_kxo, MCmp Testn 32);
  ("vpabsd/xo", r_vpabsd_xo, MLane Abs 32);
  ("vpopcntd/xo", r_vpopcntd_xo, MLane Popcnt 32);
  ("vpbroadcastd/xo", r_vpbroadcastd_xo, MSplat 32 32);
  ("vpermi2d/xxo", r_vpermi2d_xxo, MPerm2 false 32);
  ("vpermt2d/xxo", r_vpermt2d_xxo, MPerm2 true 32);
  ("vpsignd/xxo", r_vpsignd_xxo, MLane Sign 32);
  ("vprolvd/xxo", r_vprolvd_xxo, MLane Rolv 32);
  ("vprorvd/xxo", r_vprorvd_xxo, MLane Rorv 32);
  ("vplzcntd/xo", r_vplzcntd_xo, MLane Lzcnt 32);
  ("vpternlogd/xxoi", r_vpternlogd_xxoi, MLane Tern 32);
  ("valignd/xxoi", r_valignd_xxoi, MAlign 32);
  ("vpsllvd/xxo", r_vpsllvd_xxo, MLane Shlv 32);
  ("vpsrlvd/xxo", r_vpsrlvd_xxo, MLane Shrv 32);
  ("vpsravd/xxo", r_vpsravd_xxo, MLane Sarv 32);
  ("vpmulld/xxo", r_vpmulld_xxo, MLane Mullo 32);
  ("vpshldvd/xxo", r_vpshldvd_xxo, MLane Shldv 32);
  ("vpshrdvd/xxo", r_vpshrdvd_xxo, MLane Shrdv 32);
  ("vpshldd/xxoi", r_vpshldd_xxoi, MLane Shldi 32);
  ("vpshrdd/xxoi", r_vpshrdd_xxoi, MLane Shrdi 32);
  ("vpaddq/xxo", r_vpaddq_xxo, MLane Add 64);
  ("vpsubq/xxo", r_vpsubq_xxo, MLane Sub 64);
  ("vpmaxsq/xxo", r_vpmaxsq_xxo, MLane Maxs 64);
  ("vpminsq/xxo", r_vpminsq_xxo, MLane Mins 64);
  ("vpmaxuq/xxo", r_vpmaxuq_xxo, MLane Maxu 64);
  ("vpminuq/xxo", r_vpminuq_xxo, MLane Minu 64);
  ("vpcmpeqq/xxo", r_vpcmpeqq_xxo, MLane Eq 64);
  ("vpcmpgtq/xxo", r_vpcmpgtq_xxo, MLane Gts 64);
  ("vpcmpeqq/kxo", r_vpcmpeqq_kxo, MCmp Eq 64);
  ("vpcmpgtq/kxo", r_vpcmpgtq_kxo, MCmp Gts 64);
  ("vpcmpq/kxoi", r_vpcmpq_kxoi, MCmp CmpS 64);
  ("vpcmpuq/kxoi", r_vpcmpuq_kxoi, MCmp CmpU 64);
  ("vptestmq/kxo", r_vptestmq_kxo, MCmp And 64);
  ("vptestnmq/kxo", r_vptestnmq_kxo, MCmp Testn 64);
  ("vpabsq/xo", r_vpabsq_xo, MLane Abs 64);
  ("vpopcntq/xo", r_vpopcntq_xo, MLane Popcnt 64);
  ("vpbroadcastq/xo", r_vpbroadcastq_xo, MSplat 64 64);
  ("vpermi2q/xxo", r_vpermi2q_xxo, MPerm2 false 64);
  ("vpermt2q/xxo", r_vpermt2q_xxo, MPerm2 true 64);
  ("vprolvq/xxo", r_vprolvq_xxo, MLane Rolv 64);
  ("vprorvq/xxo", r_vprorvq_xxo, MLane Rorv 64);
  ("vplzcntq/xo", r_vplzcntq_xo, MLane Lzcnt 64);
  ("vpternlogq/xxoi", r_vpternlogq_xxoi, MLane Tern 64);
  ("valignq/xxoi", r_valignq_xxoi, MAlign 64);
  ("vpsllvq/xxo", r_vpsllvq_xxo, MLane Shlv 64);
  ("vpsrlvq/xxo", r_vpsrlvq_xxo, MLane Shrv 64);
  ("vpsravq/xxo", r_vpsravq_xxo, MLane Sarv 64);
  ("vpmullq/xxo", r_vpmullq_xxo, MLane Mullo 64);
  ("vpshldvq/xxo", r_vpshldvq_xxo, MLane Shldv 64);
  ("vpshrdvq/xxo", r_vpshrdvq_xxo, MLane Shrdv 64);
  ("vpshldq/xxoi", r_vpshldq_xxoi, MLane Shldi 64);
  ("vpshrdq/xxoi", r_vpshrdq_xxoi, MLane Shrdi 64);
  ("vpermi2ps/xxo", r_vpermi2ps_xxo, MPerm2 false 32);
  ("vpermi2pd/xxo", r_vpermi2pd_xxo, MPerm2 false 64);
  ("vpermt2ps/xxo", r_vpermt2ps_xxo, MPerm2 true 32);
  ("vpermt2pd/xxo", r_vpermt2pd_xxo, MPerm2 true 64);
  ("vpmulhw/xxo", r_vpmulhw_xxo, MLane Mulhs 16);
  ("vpmulhuw/xxo", r_vpmulhuw_xxo, MLane Mulhu 16);
  ("vpmulhrsw/xxo", r_vpmulhrsw_xxo, MLane Mulhrs 16);
  ("vpmuldq/xxo", r_vpmuldq_xxo, MLane Muls32 64);
  ("vpmuludq/xxo", r_vpmuludq_xxo, MLane Mulu32 64);
  ("vpmadd52luq/xxo", r_vpmadd52luq_xxo, MLane Madd52lo 64);
  ("vpmadd52huq/xxo", r_vpmadd52huq_xxo, MLane Madd52hi 64);
  ("vpermd/yyo", r_vpermd_yyo, MPerm 32);
  ("vpermps/yyo", r_vpermps_yyo, MPerm 32);
  ("vpermpd/yyo", r_vpermpd_yyo, MPerm 64);
  ("vpshufb/xxo", r_vpshufb_xxo, MShufB);
  ("vpshufd/xoi", r_vpshufd_xoi, MShuf 32 128);
  ("vpermilps/xoi", r_vpermilps_xoi, MShuf 32 128);
  ("vpermq/yoi", r_vpermq_yoi, MShuf 64 256);
  ("vpermpd/yoi", r_vpermpd_yoi, MShuf 64 256);
  ("vpunpcklbw/xxo", r_vpunpcklbw_xxo, MUnpack false 8);
  ("vpunpckhbw/xxo", r_vpunpckhbw_xxo, MUnpack true 8);
  ("vpunpcklwd/xxo", r_vpunpcklwd_xxo, MUnpack false 16);
  ("vpunpckhwd/xxo", r_vpunpckhwd_xxo, MUnpack true 16);
  ("vpunpckldq/xxo", r_vpunpckldq_xxo, MUnpack false 32);
  ("vpunpckhdq/xxo", r_vpunpckhdq_xxo, MUnpack true 32);
  ("vpunpcklqdq/xxo", r_vpunpcklqdq_xxo, MUnpack false 64);
  ("vpunpckhqdq/xxo", r_vpunpckhqdq_xxo, MUnpack true 64);
  ("vunpcklps/xxo", r_vunpcklps_xxo, MUnpack false 32);
  ("vunpckhps/xxo", r_vunpckhps_xxo, MUnpack true 32);
  ("vunpcklpd/xxo", r_vunpcklpd_xxo, MUnpack false 64);
  ("vunpckhpd/xxo", r_vunpckhpd_xxo, MUnpack true 64);
  ("vpmovzxbw/xo", r_vpmovzxbw_xo, MExt false 16 8);
  ("vpmovzxbd/xo", r_vpmovzxbd_xo, MExt false 32 8);
  ("vpmovzxbq/xo", r_vpmovzxbq_xo, MExt false 64 8);
  ("vpmovzxwd/xo", r_vpmovzxwd_xo, MExt false 32 16);
  ("vpmovzxwq/xo", r_vpmovzxwq_xo, MExt false 64 16);
  ("vpmovzxdq/xo", r_vpmovzxdq_xo, MExt false 64 32);
  ("vpmovsxbw/xo", r_vpmovsxbw_xo, MExt true 16 8);
  ("vpmovsxbd/xo", r_vpmovsxbd_xo, MExt true 32 8);
  ("vpmovsxbq/xo", r_vpmovsxbq_xo, MExt true 64 8);
  ("vpmovsxwd/xo", r_vpmovsxwd_xo, MExt true 32 16);
  ("vpmovsxwq/xo", r_vpmovsxwq_xo, MExt true 64 16);
  ("vpmovsxdq/xo", r_vpmovsxdq_xo, MExt true 64 32);
  ("vmovshdup/xo", r_vmovshdup_xo, MDup true 32);
  ("vmovsldup/xo", r_vmovsldup_xo, MDup false 32);
  ("vbroadcastss/xo", r_vbroadcastss_xo, MSplat 32 32);
  ("vbroadcastsd/yo", r_vbroadcastsd_yo, MSplat 64 64);
  ("vbroadcastf128/ya", r_vbroadcastf128_ya, MSplat 64 128);
  ("vbroadcasti128/ya", r_vbroadcasti128_ya, MSplat 64 128);
  ("vbroadcastf32x2/yo", r_vbroadcastf32x2_yo, MSplat 32 64);
  ("vbroadcasti32x2/xo", r_vbroadcasti32x2_xo, MSplat 32 64);
  ("vbroadcastf32x4/ya", r_vbroadcastf32x4_ya, MSplat 32 128);
  ("vbroadcasti32x4/yo", r_vbroadcasti32x4_yo, MSplat 32 128);
  ("vbroadcastf64x2/ya", r_vbroadcastf64x2_ya, MSplat 64 128);
  ("vbroadcasti64x2/yo", r_vbroadcasti64x2_yo, MSplat 64 128);
  ("vbroadcastf32x8/za", r_vbroadcastf32x8_za, MSplat 32 256);
  ("vbroadcasti32x8/zo", r_vbroadcasti32x8_zo, MSplat 32 256);
  ("vbroadcastf64x4/za", r_vbroadcastf64x4_za, MSplat 64 256);
  ("vbroadcasti64x4/zo", r_vbroadcasti64x4_zo, MSplat 64 256);
  ("vmovaps/xo", r_vmovaps_xo, MLane Mov 32);
  ("vmovaps/ax", r_vmovaps_ax, MLane Mov 32);
  ("vmovapd/xo", r_vmovapd_xo, MLane Mov 64);
  ("vmovapd/ax", r_vmovapd_ax, MLane Mov 64);
  ("vmovups/xo", r_vmovups_xo, MLane Mov 32);
  ("vmovups/ax", r_vmovups_ax, MLane Mov 32);
  ("vmovupd/xo", r_vmovupd_xo, MLane Mov 64);
  ("vmovupd/ax", r_vmovupd_ax, MLane Mov 64);
  ("vmovdqa/xo", r_vmovdqa_xo, MLane Mov 64);
  ("vmovdqa/ax", r_vmovdqa_ax, MLane Mov 64);
  ("vmovdqu/xo", r_vmovdqu_xo, MLane Mov 64);
  ("vmovdqu/ax", r_vmovdqu_ax, MLane Mov 64);
  ("vmovdqa32/xo", r_vmovdqa32_xo, MLane Mov 32);
  ("vmovdqa32/ax", r_vmovdqa32_ax, MLane Mov 32);
  ("vmovdqa64/xo", r_vmovdqa64_xo, MLane Mov 64);
  ("vmovdqa64/ax", r_vmovdqa64_ax, MLane Mov 64);
  ("vmovdqu8/xo", r_vmovdqu8_xo, MLane Mov 8);
  ("vmovdqu8/ax", r_vmovdqu8_ax, MLane Mov 8);
  ("vmovdqu16/xo", r_vmovdqu16_xo, MLane Mov 16);
  ("vmovdqu16/ax", r_vmovdqu16_ax, MLane Mov 16);
  ("vmovdqu32/xo", r_vmovdqu32_xo, MLane Mov 32);
  ("vmovdqu32/ax", r_vmovdqu32_ax, MLane Mov 32);
  ("vmovdqu64/xo", r_vmovdqu64_xo, MLane Mov 64);
  ("vmovdqu64/ax", r_vmovdqu64_ax, MLane Mov 64);
  ("vmovss/xa", r_vmovss_xa, MOne 32);
  ("vmovss/ax", r_vmovss_ax, MOne 32);
  ("vmovsd/xa", r_vmovsd_xa, MOne 64);
  ("vmovsd/ax", r_vmovsd_ax, MOne 64);
  ("vmovsh/xa", r_vmovsh_xa, MOne 16);
  ("vmovsh/ax", r_vmovsh_ax, MOne 16)
].
(* the instructions of the processor *)
Definition vec_proc : list (vrow * meaning) := map (fun t => (snd (fst t), snd t)) vec_isa.
(* what the instruction of that name does *)
Definition vec_named (n : string) : option (vrow * meaning) :=
  match find (fun t => String.eqb n (fst (fst t))) vec_isa with Some t => Some (snd (fst t), snd t) | None => None end.
