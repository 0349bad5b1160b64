(* Produced by tools/vextab.py: the VEX/EVEX methods of xbyak_mnemonic.h paired with the rows of the
   instruction table, by the shape of their bodies, and the proof that each method implements its row. *)
From Coq Require Import ZArith List Bool String Lia.
From Verif Require Import Base Types Emit Encode SpecX86 SpecAddr SpecIsa SpecInsn IsaRows Wf EmitFacts MemFacts LegacyFacts VexFacts EncThms IsaFacts VexShapes VexShapes2 VexTac VexShapes3 GatherFacts Mnemonic MnemonicAvx.
Import ListNotations.
Open Scope string_scope.
Open Scope Z_scope.

Definition tab0 : list entry := [
  mkEntry "vaddps/xoo" [cX; cX; cO] (roo i_vaddps) r_vaddps_xoo VlRegs;
  mkEntry "vaddpd/xoo" [cX; cX; cO] (roo i_vaddpd) r_vaddpd_xoo VlRegs;
  mkEntry "vaddss/xoo" [cX; cX; cO] (roo i_vaddss) r_vaddss_xoo VlRegs;
  mkEntry "vaddsd/xoo" [cX; cX; cO] (roo i_vaddsd) r_vaddsd_xoo VlRegs;
  mkEntry "vaddph/xoo" [cX; cX; cO] (roo i_vaddph) r_vaddph_xoo VlRegs;
  mkEntry "vaddsh/xoo" [cX; cX; cO] (roo i_vaddsh) r_vaddsh_xoo VlRegs;
  mkEntry "vmulps/xoo" [cX; cX; cO] (roo i_vmulps) r_vmulps_xoo VlRegs;
  mkEntry "vmulpd/xoo" [cX; cX; cO] (roo i_vmulpd) r_vmulpd_xoo VlRegs;
  mkEntry "vmulss/xoo" [cX; cX; cO] (roo i_vmulss) r_vmulss_xoo VlRegs;
  mkEntry "vmulsd/xoo" [cX; cX; cO] (roo i_vmulsd) r_vmulsd_xoo VlRegs;
  mkEntry "vmulph/xoo" [cX; cX; cO] (roo i_vmulph) r_vmulph_xoo VlRegs;
  mkEntry "vmulsh/xoo" [cX; cX; cO] (roo i_vmulsh) r_vmulsh_xoo VlRegs;
  mkEntry "vsubps/xoo" [cX; cX; cO] (roo i_vsubps) r_vsubps_xoo VlRegs;
  mkEntry "vsubpd/xoo" [cX; cX; cO] (roo i_vsubpd) r_vsubpd_xoo VlRegs;
  mkEntry "vsubss/xoo" [cX; cX; cO] (roo i_vsubss) r_vsubss_xoo VlRegs;
  mkEntry "vsubsd/xoo" [cX; cX; cO] (roo i_vsubsd) r_vsubsd_xoo VlRegs;
  mkEntry "vsubph/xoo" [cX; cX; cO] (roo i_vsubph) r_vsubph_xoo VlRegs;
  mkEntry "vsubsh/xoo" [cX; cX; cO] (roo i_vsubsh) r_vsubsh_xoo VlRegs;
  mkEntry "vminps/xoo" [cX; cX; cO] (roo i_vminps) r_vminps_xoo VlRegs;
  mkEntry "vminpd/xoo" [cX; cX; cO] (roo i_vminpd) r_vminpd_xoo VlRegs;
  mkEntry "vminss/xoo" [cX; cX; cO] (roo i_vminss) r_vminss_xoo VlRegs;
  mkEntry "vminsd/xoo" [cX; cX; cO] (roo i_vminsd) r_vminsd_xoo VlRegs;
  mkEntry "vminph/xoo" [cX; cX; cO] (roo i_vminph) r_vminph_xoo VlRegs;
  mkEntry "vminsh/xoo" [cX; cX; cO] (roo i_vminsh) r_vminsh_xoo VlRegs;
  mkEntry "vdivps/xoo" [cX; cX; cO] (roo i_vdivps) r_vdivps_xoo VlRegs;
  mkEntry "vdivpd/xoo" [cX; cX; cO] (roo i_vdivpd) r_vdivpd_xoo VlRegs;
  mkEntry "vdivss/xoo" [cX; cX; cO] (roo i_vdivss) r_vdivss_xoo VlRegs;
  mkEntry "vdivsd/xoo" [cX; cX; cO] (roo i_vdivsd) r_vdivsd_xoo VlRegs;
  mkEntry "vdivph/xoo" [cX; cX; cO] (roo i_vdivph) r_vdivph_xoo VlRegs;
  mkEntry "vdivsh/xoo" [cX; cX; cO] (roo i_vdivsh) r_vdivsh_xoo VlRegs;
  mkEntry "vmaxps/xoo" [cX; cX; cO] (roo i_vmaxps) r_vmaxps_xoo VlRegs;
  mkEntry "vmaxpd/xoo" [cX; cX; cO] (roo i_vmaxpd) r_vmaxpd_xoo VlRegs;
  mkEntry "vmaxss/xoo" [cX; cX; cO] (roo i_vmaxss) r_vmaxss_xoo VlRegs;
  mkEntry "vmaxsd/xoo" [cX; cX; cO] (roo i_vmaxsd) r_vmaxsd_xoo VlRegs;
  mkEntry "vmaxph/xoo" [cX; cX; cO] (roo i_vmaxph) r_vmaxph_xoo VlRegs;
  mkEntry "vmaxsh/xoo" [cX; cX; cO] (roo i_vmaxsh) r_vmaxsh_xoo VlRegs;
  mkEntry "vaddsubpd/xoo" [cX; cX; cO] (roo i_vaddsubpd) r_vaddsubpd_xoo VlRegs;
  mkEntry "vaddsubps/xoo" [cX; cX; cO] (roo i_vaddsubps) r_vaddsubps_xoo VlRegs;
  mkEntry "vhaddpd/xoo" [cX; cX; cO] (roo i_vhaddpd) r_vhaddpd_xoo VlRegs;
  mkEntry "vhaddps/xoo" [cX; cX; cO] (roo i_vhaddps) r_vhaddps_xoo VlRegs;
  mkEntry "vhsubpd/xoo" [cX; cX; cO] (roo i_vhsubpd) r_vhsubpd_xoo VlRegs;
  mkEntry "vhsubps/xoo" [cX; cX; cO] (roo i_vhsubps) r_vhsubps_xoo VlRegs;
  mkEntry "vandps/xoo" [cX; cX; cO] (roo i_vandps) r_vandps_xoo VlRegs;
  mkEntry "vandpd/xoo" [cX; cX; cO] (roo i_vandpd) r_vandpd_xoo VlRegs;
  mkEntry "vandnps/xoo" [cX; cX; cO] (roo i_vandnps) r_vandnps_xoo VlRegs;
  mkEntry "vandnpd/xoo" [cX; cX; cO] (roo i_vandnpd) r_vandnpd_xoo VlRegs;
  mkEntry "vorps/xoo" [cX; cX; cO] (roo i_vorps) r_vorps_xoo VlRegs;
  mkEntry "vorpd/xoo" [cX; cX; cO] (roo i_vorpd) r_vorpd_xoo VlRegs;
  mkEntry "vxorps/xoo" [cX; cX; cO] (roo i_vxorps) r_vxorps_xoo VlRegs;
  mkEntry "vxorpd/xoo" [cX; cX; cO] (roo i_vxorpd) r_vxorpd_xoo VlRegs;
  mkEntry "vaesenc/xoo" [cX; cX; cO] (roo i_vaesenc) r_vaesenc_xoo VlRegs;
  mkEntry "vaesenclast/xoo" [cX; cX; cO] (roo i_vaesenclast) r_vaesenclast_xoo VlRegs;
  mkEntry "vaesdec/xoo" [cX; cX; cO] (roo i_vaesdec) r_vaesdec_xoo VlRegs;
  mkEntry "vaesdeclast/xoo" [cX; cX; cO] (roo i_vaesdeclast) r_vaesdeclast_xoo VlRegs
].
Lemma tab0_ok : Forall (implements true) tab0.
Proof.
  unfold tab0. do 54 (apply Forall_cons; [eapply impl_rvm_oo; [reflexivity|reflexivity|discriminate|chk|rcm|reflexivity|reflexivity]|]). apply Forall_nil.
Qed.

Definition tab1 : list entry := [
  mkEntry "vaddnepbf16/xxo" [cX; cX; cO] (rro i_vaddnepbf16) r_vaddnepbf16_xxo VlRegs;
  mkEntry "vmulnepbf16/xxo" [cX; cX; cO] (rro i_vmulnepbf16) r_vmulnepbf16_xxo VlRegs;
  mkEntry "vsubnepbf16/xxo" [cX; cX; cO] (rro i_vsubnepbf16) r_vsubnepbf16_xxo VlRegs;
  mkEntry "vminpbf16/xxo" [cX; cX; cO] (rro i_vminpbf16) r_vminpbf16_xxo VlRegs;
  mkEntry "vdivnepbf16/xxo" [cX; cX; cO] (rro i_vdivnepbf16) r_vdivnepbf16_xxo VlRegs;
  mkEntry "vmaxpbf16/xxo" [cX; cX; cO] (rro i_vmaxpbf16) r_vmaxpbf16_xxo VlRegs;
  mkEntry "vcvtsd2ss/xxo" [cX; cX; cO] (rro i_vcvtsd2ss_xxo) r_vcvtsd2ss_xxo VlRegs;
  mkEntry "vcvtss2sd/xxo" [cX; cX; cO] (rro i_vcvtss2sd_xxo) r_vcvtss2sd_xxo VlRegs;
  mkEntry "vfmaddsub132ps/xxo" [cX; cX; cO] (rro i_vfmaddsub132ps) r_vfmaddsub132ps_xxo VlRegs;
  mkEntry "vfmaddsub132pd/xxo" [cX; cX; cO] (rro i_vfmaddsub132pd) r_vfmaddsub132pd_xxo VlRegs;
  mkEntry "vfmaddsub132ph/xxo" [cX; cX; cO] (rro i_vfmaddsub132ph) r_vfmaddsub132ph_xxo VlRegs;
  mkEntry "vfmsubadd132ps/xxo" [cX; cX; cO] (rro i_vfmsubadd132ps) r_vfmsubadd132ps_xxo VlRegs;
  mkEntry "vfmsubadd132pd/xxo" [cX; cX; cO] (rro i_vfmsubadd132pd) r_vfmsubadd132pd_xxo VlRegs;
  mkEntry "vfmsubadd132ph/xxo" [cX; cX; cO] (rro i_vfmsubadd132ph) r_vfmsubadd132ph_xxo VlRegs;
  mkEntry "vfmadd132ps/xxo" [cX; cX; cO] (rro i_vfmadd132ps) r_vfmadd132ps_xxo VlRegs;
  mkEntry "vfmadd132pd/xxo" [cX; cX; cO] (rro i_vfmadd132pd) r_vfmadd132pd_xxo VlRegs;
  mkEntry "vfmadd132ph/xxo" [cX; cX; cO] (rro i_vfmadd132ph) r_vfmadd132ph_xxo VlRegs;
  mkEntry "vfmadd132nepbf16/xxo" [cX; cX; cO] (rro i_vfmadd132nepbf16) r_vfmadd132nepbf16_xxo VlRegs;
  mkEntry "vfmadd132ss/xxo" [cX; cX; cO] (rro i_vfmadd132ss) r_vfmadd132ss_xxo VlRegs;
  mkEntry "vfmadd132sd/xxo" [cX; cX; cO] (rro i_vfmadd132sd) r_vfmadd132sd_xxo VlRegs;
  mkEntry "vfmadd132sh/xxo" [cX; cX; cO] (rro i_vfmadd132sh) r_vfmadd132sh_xxo VlRegs;
  mkEntry "vfmsub132ps/xxo" [cX; cX; cO] (rro i_vfmsub132ps) r_vfmsub132ps_xxo VlRegs;
  mkEntry "vfmsub132pd/xxo" [cX; cX; cO] (rro i_vfmsub132pd) r_vfmsub132pd_xxo VlRegs;
  mkEntry "vfmsub132ph/xxo" [cX; cX; cO] (rro i_vfmsub132ph) r_vfmsub132ph_xxo VlRegs;
  mkEntry "vfmsub132nepbf16/xxo" [cX; cX; cO] (rro i_vfmsub132nepbf16) r_vfmsub132nepbf16_xxo VlRegs;
  mkEntry "vfmsub132ss/xxo" [cX; cX; cO] (rro i_vfmsub132ss) r_vfmsub132ss_xxo VlRegs;
  mkEntry "vfmsub132sd/xxo" [cX; cX; cO] (rro i_vfmsub132sd) r_vfmsub132sd_xxo VlRegs;
  mkEntry "vfmsub132sh/xxo" [cX; cX; cO] (rro i_vfmsub132sh) r_vfmsub132sh_xxo VlRegs;
  mkEntry "vfnmadd132ps/xxo" [cX; cX; cO] (rro i_vfnmadd132ps) r_vfnmadd132ps_xxo VlRegs;
  mkEntry "vfnmadd132pd/xxo" [cX; cX; cO] (rro i_vfnmadd132pd) r_vfnmadd132pd_xxo VlRegs;
  mkEntry "vfnmadd132ph/xxo" [cX; cX; cO] (rro i_vfnmadd132ph) r_vfnmadd132ph_xxo VlRegs;
  mkEntry "vfnmadd132nepbf16/xxo" [cX; cX; cO] (rro i_vfnmadd132nepbf16) r_vfnmadd132nepbf16_xxo VlRegs;
  mkEntry "vfnmadd132ss/xxo" [cX; cX; cO] (rro i_vfnmadd132ss) r_vfnmadd132ss_xxo VlRegs;
  mkEntry "vfnmadd132sd/xxo" [cX; cX; cO] (rro i_vfnmadd132sd) r_vfnmadd132sd_xxo VlRegs;
  mkEntry "vfnmadd132sh/xxo" [cX; cX; cO] (rro i_vfnmadd132sh) r_vfnmadd132sh_xxo VlRegs;
  mkEntry "vfnmsub132ps/xxo" [cX; cX; cO] (rro i_vfnmsub132ps) r_vfnmsub132ps_xxo VlRegs;
  mkEntry "vfnmsub132pd/xxo" [cX; cX; cO] (rro i_vfnmsub132pd) r_vfnmsub132pd_xxo VlRegs;
  mkEntry "vfnmsub132ph/xxo" [cX; cX; cO] (rro i_vfnmsub132ph) r_vfnmsub132ph_xxo VlRegs;
  mkEntry "vfnmsub132nepbf16/xxo" [cX; cX; cO] (rro i_vfnmsub132nepbf16) r_vfnmsub132nepbf16_xxo VlRegs;
  mkEntry "vfnmsub132ss/xxo" [cX; cX; cO] (rro i_vfnmsub132ss) r_vfnmsub132ss_xxo VlRegs;
  mkEntry "vfnmsub132sd/xxo" [cX; cX; cO] (rro i_vfnmsub132sd) r_vfnmsub132sd_xxo VlRegs;
  mkEntry "vfnmsub132sh/xxo" [cX; cX; cO] (rro i_vfnmsub132sh) r_vfnmsub132sh_xxo VlRegs;
  mkEntry "vfmaddsub213ps/xxo" [cX; cX; cO] (rro i_vfmaddsub213ps) r_vfmaddsub213ps_xxo VlRegs;
  mkEntry "vfmaddsub213pd/xxo" [cX; cX; cO] (rro i_vfmaddsub213pd) r_vfmaddsub213pd_xxo VlRegs;
  mkEntry "vfmaddsub213ph/xxo" [cX; cX; cO] (rro i_vfmaddsub213ph) r_vfmaddsub213ph_xxo VlRegs;
  mkEntry "vfmsubadd213ps/xxo" [cX; cX; cO] (rro i_vfmsubadd213ps) r_vfmsubadd213ps_xxo VlRegs;
  mkEntry "vfmsubadd213pd/xxo" [cX; cX; cO] (rro i_vfmsubadd213pd) r_vfmsubadd213pd_xxo VlRegs;
  mkEntry "vfmsubadd213ph/xxo" [cX; cX; cO] (rro i_vfmsubadd213ph) r_vfmsubadd213ph_xxo VlRegs;
  mkEntry "vfmadd213ps/xxo" [cX; cX; cO] (rro i_vfmadd213ps) r_vfmadd213ps_xxo VlRegs;
  mkEntry "vfmadd213pd/xxo" [cX; cX; cO] (rro i_vfmadd213pd) r_vfmadd213pd_xxo VlRegs;
  mkEntry "vfmadd213ph/xxo" [cX; cX; cO] (rro i_vfmadd213ph) r_vfmadd213ph_xxo VlRegs;
  mkEntry "vfmadd213nepbf16/xxo" [cX; cX; cO] (rro i_vfmadd213nepbf16) r_vfmadd213nepbf16_xxo VlRegs;
  mkEntry "vfmadd213ss/xxo" [cX; cX; cO] (rro i_vfmadd213ss) r_vfmadd213ss_xxo VlRegs;
  mkEntry "vfmadd213sd/xxo" [cX; cX; cO] (rro i_vfmadd213sd) r_vfmadd213sd_xxo VlRegs;
  mkEntry "vfmadd213sh/xxo" [cX; cX; cO] (rro i_vfmadd213sh) r_vfmadd213sh_xxo VlRegs;
  mkEntry "vfmsub213ps/xxo" [cX; cX; cO] (rro i_vfmsub213ps) r_vfmsub213ps_xxo VlRegs;
  mkEntry "vfmsub213pd/xxo" [cX; cX; cO] (rro i_vfmsub213pd) r_vfmsub213pd_xxo VlRegs;
  mkEntry "vfmsub213ph/xxo" [cX; cX; cO] (rro i_vfmsub213ph) r_vfmsub213ph_xxo VlRegs;
  mkEntry "vfmsub213nepbf16/xxo" [cX; cX; cO] (rro i_vfmsub213nepbf16) r_vfmsub213nepbf16_xxo VlRegs;
  mkEntry "vfmsub213ss/xxo" [cX; cX; cO] (rro i_vfmsub213ss) r_vfmsub213ss_xxo VlRegs;
  mkEntry "vfmsub213sd/xxo" [cX; cX; cO] (rro i_vfmsub213sd) r_vfmsub213sd_xxo VlRegs;
  mkEntry "vfmsub213sh/xxo" [cX; cX; cO] (rro i_vfmsub213sh) r_vfmsub213sh_xxo VlRegs;
  mkEntry "vfnmadd213ps/xxo" [cX; cX; cO] (rro i_vfnmadd213ps) r_vfnmadd213ps_xxo VlRegs;
  mkEntry "vfnmadd213pd/xxo" [cX; cX; cO] (rro i_vfnmadd213pd) r_vfnmadd213pd_xxo VlRegs;
  mkEntry "vfnmadd213ph/xxo" [cX; cX; cO] (rro i_vfnmadd213ph) r_vfnmadd213ph_xxo VlRegs;
  mkEntry "vfnmadd213nepbf16/xxo" [cX; cX; cO] (rro i_vfnmadd213nepbf16) r_vfnmadd213nepbf16_xxo VlRegs;
  mkEntry "vfnmadd213ss/xxo" [cX; cX; cO] (rro i_vfnmadd213ss) r_vfnmadd213ss_xxo VlRegs;
  mkEntry "vfnmadd213sd/xxo" [cX; cX; cO] (rro i_vfnmadd213sd) r_vfnmadd213sd_xxo VlRegs;
  mkEntry "vfnmadd213sh/xxo" [cX; cX; cO] (rro i_vfnmadd213sh) r_vfnmadd213sh_xxo VlRegs;
  mkEntry "vfnmsub213ps/xxo" [cX; cX; cO] (rro i_vfnmsub213ps) r_vfnmsub213ps_xxo VlRegs;
  mkEntry "vfnmsub213pd/xxo" [cX; cX; cO] (rro i_vfnmsub213pd) r_vfnmsub213pd_xxo VlRegs;
  mkEntry "vfnmsub213ph/xxo" [cX; cX; cO] (rro i_vfnmsub213ph) r_vfnmsub213ph_xxo VlRegs;
  mkEntry "vfnmsub213nepbf16/xxo" [cX; cX; cO] (rro i_vfnmsub213nepbf16) r_vfnmsub213nepbf16_xxo VlRegs;
  mkEntry "vfnmsub213ss/xxo" [cX; cX; cO] (rro i_vfnmsub213ss) r_vfnmsub213ss_xxo VlRegs;
  mkEntry "vfnmsub213sd/xxo" [cX; cX; cO] (rro i_vfnmsub213sd) r_vfnmsub213sd_xxo VlRegs;
  mkEntry "vfnmsub213sh/xxo" [cX; cX; cO] (rro i_vfnmsub213sh) r_vfnmsub213sh_xxo VlRegs;
  mkEntry "vfmaddsub231ps/xxo" [cX; cX; cO] (rro i_vfmaddsub231ps) r_vfmaddsub231ps_xxo VlRegs;
  mkEntry "vfmaddsub231pd/xxo" [cX; cX; cO] (rro i_vfmaddsub231pd) r_vfmaddsub231pd_xxo VlRegs;
  mkEntry "vfmaddsub231ph/xxo" [cX; cX; cO] (rro i_vfmaddsub231ph) r_vfmaddsub231ph_xxo VlRegs;
  mkEntry "vfmsubadd231ps/xxo" [cX; cX; cO] (rro i_vfmsubadd231ps) r_vfmsubadd231ps_xxo VlRegs;
  mkEntry "vfmsubadd231pd/xxo" [cX; cX; cO] (rro i_vfmsubadd231pd) r_vfmsubadd231pd_xxo VlRegs;
  mkEntry "vfmsubadd231ph/xxo" [cX; cX; cO] (rro i_vfmsubadd231ph) r_vfmsubadd231ph_xxo VlRegs;
  mkEntry "vfmadd231ps/xxo" [cX; cX; cO] (rro i_vfmadd231ps) r_vfmadd231ps_xxo VlRegs;
  mkEntry "vfmadd231pd/xxo" [cX; cX; cO] (rro i_vfmadd231pd) r_vfmadd231pd_xxo VlRegs;
  mkEntry "vfmadd231ph/xxo" [cX; cX; cO] (rro i_vfmadd231ph) r_vfmadd231ph_xxo VlRegs;
  mkEntry "vfmadd231nepbf16/xxo" [cX; cX; cO] (rro i_vfmadd231nepbf16) r_vfmadd231nepbf16_xxo VlRegs;
  mkEntry "vfmadd231ss/xxo" [cX; cX; cO] (rro i_vfmadd231ss) r_vfmadd231ss_xxo VlRegs;
  mkEntry "vfmadd231sd/xxo" [cX; cX; cO] (rro i_vfmadd231sd) r_vfmadd231sd_xxo VlRegs;
  mkEntry "vfmadd231sh/xxo" [cX; cX; cO] (rro i_vfmadd231sh) r_vfmadd231sh_xxo VlRegs;
  mkEntry "vfmsub231ps/xxo" [cX; cX; cO] (rro i_vfmsub231ps) r_vfmsub231ps_xxo VlRegs;
  mkEntry "vfmsub231pd/xxo" [cX; cX; cO] (rro i_vfmsub231pd) r_vfmsub231pd_xxo VlRegs;
  mkEntry "vfmsub231ph/xxo" [cX; cX; cO] (rro i_vfmsub231ph) r_vfmsub231ph_xxo VlRegs;
  mkEntry "vfmsub231nepbf16/xxo" [cX; cX; cO] (rro i_vfmsub231nepbf16) r_vfmsub231nepbf16_xxo VlRegs;
  mkEntry "vfmsub231ss/xxo" [cX; cX; cO] (rro i_vfmsub231ss) r_vfmsub231ss_xxo VlRegs;
  mkEntry "vfmsub231sd/xxo" [cX; cX; cO] (rro i_vfmsub231sd) r_vfmsub231sd_xxo VlRegs;
  mkEntry "vfmsub231sh/xxo" [cX; cX; cO] (rro i_vfmsub231sh) r_vfmsub231sh_xxo VlRegs;
  mkEntry "vfnmadd231ps/xxo" [cX; cX; cO] (rro i_vfnmadd231ps) r_vfnmadd231ps_xxo VlRegs;
  mkEntry "vfnmadd231pd/xxo" [cX; cX; cO] (rro i_vfnmadd231pd) r_vfnmadd231pd_xxo VlRegs;
  mkEntry "vfnmadd231ph/xxo" [cX; cX; cO] (rro i_vfnmadd231ph) r_vfnmadd231ph_xxo VlRegs;
  mkEntry "vfnmadd231nepbf16/xxo" [cX; cX; cO] (rro i_vfnmadd231nepbf16) r_vfnmadd231nepbf16_xxo VlRegs;
  mkEntry "vfnmadd231ss/xxo" [cX; cX; cO] (rro i_vfnmadd231ss) r_vfnmadd231ss_xxo VlRegs;
  mkEntry "vfnmadd231sd/xxo" [cX; cX; cO] (rro i_vfnmadd231sd) r_vfnmadd231sd_xxo VlRegs;
  mkEntry "vfnmadd231sh/xxo" [cX; cX; cO] (rro i_vfnmadd231sh) r_vfnmadd231sh_xxo VlRegs;
  mkEntry "vfnmsub231ps/xxo" [cX; cX; cO] (rro i_vfnmsub231ps) r_vfnmsub231ps_xxo VlRegs;
  mkEntry "vfnmsub231pd/xxo" [cX; cX; cO] (rro i_vfnmsub231pd) r_vfnmsub231pd_xxo VlRegs;
  mkEntry "vfnmsub231ph/xxo" [cX; cX; cO] (rro i_vfnmsub231ph) r_vfnmsub231ph_xxo VlRegs;
  mkEntry "vfnmsub231nepbf16/xxo" [cX; cX; cO] (rro i_vfnmsub231nepbf16) r_vfnmsub231nepbf16_xxo VlRegs;
  mkEntry "vfnmsub231ss/xxo" [cX; cX; cO] (rro i_vfnmsub231ss) r_vfnmsub231ss_xxo VlRegs;
  mkEntry "vfnmsub231sd/xxo" [cX; cX; cO] (rro i_vfnmsub231sd) r_vfnmsub231sd_xxo VlRegs;
  mkEntry "vfnmsub231sh/xxo" [cX; cX; cO] (rro i_vfnmsub231sh) r_vfnmsub231sh_xxo VlRegs;
  mkEntry "vpacksswb/xxo" [cX; cX; cO] (rro i_vpacksswb_xxo) r_vpacksswb_xxo VlRegs;
  mkEntry "vpackuswb/xxo" [cX; cX; cO] (rro i_vpackuswb_xxo) r_vpackuswb_xxo VlRegs;
  mkEntry "vpaddb/xxo" [cX; cX; cO] (rro i_vpaddb_xxo) r_vpaddb_xxo VlRegs;
  mkEntry "vpaddw/xxo" [cX; cX; cO] (rro i_vpaddw_xxo) r_vpaddw_xxo VlRegs;
  mkEntry "vpaddsb/xxo" [cX; cX; cO] (rro i_vpaddsb_xxo) r_vpaddsb_xxo VlRegs;
  mkEntry "vpaddsw/xxo" [cX; cX; cO] (rro i_vpaddsw_xxo) r_vpaddsw_xxo VlRegs;
  mkEntry "vpaddusb/xxo" [cX; cX; cO] (rro i_vpaddusb_xxo) r_vpaddusb_xxo VlRegs;
  mkEntry "vpaddusw/xxo" [cX; cX; cO] (rro i_vpaddusw_xxo) r_vpaddusw_xxo VlRegs;
  mkEntry "vpavgb/xxo" [cX; cX; cO] (rro i_vpavgb_xxo) r_vpavgb_xxo VlRegs;
  mkEntry "vpavgw/xxo" [cX; cX; cO] (rro i_vpavgw_xxo) r_vpavgw_xxo VlRegs;
  mkEntry "vpmaddubsw/xxo" [cX; cX; cO] (rro i_vpmaddubsw_xxo) r_vpmaddubsw_xxo VlRegs;
  mkEntry "vpmaddwd/xxo" [cX; cX; cO] (rro i_vpmaddwd_xxo) r_vpmaddwd_xxo VlRegs;
  mkEntry "vpmaxsb/xxo" [cX; cX; cO] (rro i_vpmaxsb_xxo) r_vpmaxsb_xxo VlRegs;
  mkEntry "vpmaxsw/xxo" [cX; cX; cO] (rro i_vpmaxsw_xxo) r_vpmaxsw_xxo VlRegs;
  mkEntry "vpmaxub/xxo" [cX; cX; cO] (rro i_vpmaxub_xxo) r_vpmaxub_xxo VlRegs;
  mkEntry "vpmaxuw/xxo" [cX; cX; cO] (rro i_vpmaxuw_xxo) r_vpmaxuw_xxo VlRegs;
  mkEntry "vpminsb/xxo" [cX; cX; cO] (rro i_vpminsb_xxo) r_vpminsb_xxo VlRegs;
  mkEntry "vpminsw/xxo" [cX; cX; cO] (rro i_vpminsw_xxo) r_vpminsw_xxo VlRegs;
  mkEntry "vpminub/xxo" [cX; cX; cO] (rro i_vpminub_xxo) r_vpminub_xxo VlRegs;
  mkEntry "vpminuw/xxo" [cX; cX; cO] (rro i_vpminuw_xxo) r_vpminuw_xxo VlRegs;
  mkEntry "vpmulhrsw/xxo" [cX; cX; cO] (rro i_vpmulhrsw_xxo) r_vpmulhrsw_xxo VlRegs;
  mkEntry "vpmulhuw/xxo" [cX; cX; cO] (rro i_vpmulhuw_xxo) r_vpmulhuw_xxo VlRegs;
  mkEntry "vpmulhw/xxo" [cX; cX; cO] (rro i_vpmulhw_xxo) r_vpmulhw_xxo VlRegs;
  mkEntry "vpmullw/xxo" [cX; cX; cO] (rro i_vpmullw_xxo) r_vpmullw_xxo VlRegs;
  mkEntry "vpsadbw/xxo" [cX; cX; cO] (rro i_vpsadbw_xxo) r_vpsadbw_xxo VlRegs;
  mkEntry "vpshufb/xxo" [cX; cX; cO] (rro i_vpshufb) r_vpshufb_xxo VlRegs;
  mkEntry "vpsubb/xxo" [cX; cX; cO] (rro i_vpsubb_xxo) r_vpsubb_xxo VlRegs;
  mkEntry "vpsubw/xxo" [cX; cX; cO] (rro i_vpsubw_xxo) r_vpsubw_xxo VlRegs;
  mkEntry "vpsubsb/xxo" [cX; cX; cO] (rro i_vpsubsb_xxo) r_vpsubsb_xxo VlRegs;
  mkEntry "vpsubsw/xxo" [cX; cX; cO] (rro i_vpsubsw_xxo) r_vpsubsw_xxo VlRegs;
  mkEntry "vpsubusb/xxo" [cX; cX; cO] (rro i_vpsubusb_xxo) r_vpsubusb_xxo VlRegs;
  mkEntry "vpsubusw/xxo" [cX; cX; cO] (rro i_vpsubusw_xxo) r_vpsubusw_xxo VlRegs;
  mkEntry "vpunpckhbw/xxo" [cX; cX; cO] (rro i_vpunpckhbw_xxo) r_vpunpckhbw_xxo VlRegs;
  mkEntry "vpunpckhwd/xxo" [cX; cX; cO] (rro i_vpunpckhwd_xxo) r_vpunpckhwd_xxo VlRegs;
  mkEntry "vpunpcklbw/xxo" [cX; cX; cO] (rro i_vpunpcklbw_xxo) r_vpunpcklbw_xxo VlRegs;
  mkEntry "vpunpcklwd/xxo" [cX; cX; cO] (rro i_vpunpcklwd_xxo) r_vpunpcklwd_xxo VlRegs;
  mkEntry "vpackssdw/xxo" [cX; cX; cO] (rro i_vpackssdw_xxo) r_vpackssdw_xxo VlRegs;
  mkEntry "vpackusdw/xxo" [cX; cX; cO] (rro i_vpackusdw_xxo) r_vpackusdw_xxo VlRegs;
  mkEntry "vpaddd/xxo" [cX; cX; cO] (rro i_vpaddd_xxo) r_vpaddd_xxo VlRegs;
  mkEntry "vpaddq/xxo" [cX; cX; cO] (rro i_vpaddq_xxo) r_vpaddq_xxo VlRegs;
  mkEntry "vpmaxsd/xxo" [cX; cX; cO] (rro i_vpmaxsd_xxo) r_vpmaxsd_xxo VlRegs;
  mkEntry "vpmaxud/xxo" [cX; cX; cO] (rro i_vpmaxud_xxo) r_vpmaxud_xxo VlRegs;
  mkEntry "vpminsd/xxo" [cX; cX; cO] (rro i_vpminsd_xxo) r_vpminsd_xxo VlRegs;
  mkEntry "vpminud/xxo" [cX; cX; cO] (rro i_vpminud_xxo) r_vpminud_xxo VlRegs;
  mkEntry "vpmuldq/xxo" [cX; cX; cO] (rro i_vpmuldq_xxo) r_vpmuldq_xxo VlRegs;
  mkEntry "vpmulld/xxo" [cX; cX; cO] (rro i_vpmulld_xxo) r_vpmulld_xxo VlRegs;
  mkEntry "vpmuludq/xxo" [cX; cX; cO] (rro i_vpmuludq_xxo) r_vpmuludq_xxo VlRegs;
  mkEntry "vpsubd/xxo" [cX; cX; cO] (rro i_vpsubd_xxo) r_vpsubd_xxo VlRegs;
  mkEntry "vpsubq/xxo" [cX; cX; cO] (rro i_vpsubq_xxo) r_vpsubq_xxo VlRegs;
  mkEntry "vpunpckhdq/xxo" [cX; cX; cO] (rro i_vpunpckhdq_xxo) r_vpunpckhdq_xxo VlRegs;
  mkEntry "vpunpckhqdq/xxo" [cX; cX; cO] (rro i_vpunpckhqdq_xxo) r_vpunpckhqdq_xxo VlRegs;
  mkEntry "vpunpckldq/xxo" [cX; cX; cO] (rro i_vpunpckldq_xxo) r_vpunpckldq_xxo VlRegs;
  mkEntry "vpunpcklqdq/xxo" [cX; cX; cO] (rro i_vpunpcklqdq_xxo) r_vpunpcklqdq_xxo VlRegs;
  mkEntry "vpand/xxo" [cX; cX; cO] (rro i_vpand_xxo) r_vpand_xxo VlRegs;
  mkEntry "vpandn/xxo" [cX; cX; cO] (rro i_vpandn_xxo) r_vpandn_xxo VlRegs;
  mkEntry "vpor/xxo" [cX; cX; cO] (rro i_vpor_xxo) r_vpor_xxo VlRegs;
  mkEntry "vpxor/xxo" [cX; cX; cO] (rro i_vpxor_xxo) r_vpxor_xxo VlRegs;
  mkEntry "vpcmpeqb/xxo" [cX; cX; cO] (rro i_vpcmpeqb_xxo) r_vpcmpeqb_xxo VlRegs;
  mkEntry "vpcmpeqw/xxo" [cX; cX; cO] (rro i_vpcmpeqw_xxo) r_vpcmpeqw_xxo VlRegs;
  mkEntry "vpcmpeqd/xxo" [cX; cX; cO] (rro i_vpcmpeqd_xxo) r_vpcmpeqd_xxo VlRegs;
  mkEntry "vpcmpeqq/xxo" [cX; cX; cO] (rro i_vpcmpeqq_xxo) r_vpcmpeqq_xxo VlRegs;
  mkEntry "vpcmpgtb/xxo" [cX; cX; cO] (rro i_vpcmpgtb_xxo) r_vpcmpgtb_xxo VlRegs;
  mkEntry "vpcmpgtw/xxo" [cX; cX; cO] (rro i_vpcmpgtw_xxo) r_vpcmpgtw_xxo VlRegs;
  mkEntry "vpcmpgtd/xxo" [cX; cX; cO] (rro i_vpcmpgtd_xxo) r_vpcmpgtd_xxo VlRegs;
  mkEntry "vpcmpgtq/xxo" [cX; cX; cO] (rro i_vpcmpgtq_xxo) r_vpcmpgtq_xxo VlRegs;
  mkEntry "vphaddw/xxo" [cX; cX; cO] (rro i_vphaddw_xxo) r_vphaddw_xxo VlRegs;
  mkEntry "vphaddd/xxo" [cX; cX; cO] (rro i_vphaddd_xxo) r_vphaddd_xxo VlRegs;
  mkEntry "vphaddsw/xxo" [cX; cX; cO] (rro i_vphaddsw_xxo) r_vphaddsw_xxo VlRegs;
  mkEntry "vphsubw/xxo" [cX; cX; cO] (rro i_vphsubw_xxo) r_vphsubw_xxo VlRegs;
  mkEntry "vphsubd/xxo" [cX; cX; cO] (rro i_vphsubd_xxo) r_vphsubd_xxo VlRegs;
  mkEntry "vphsubsw/xxo" [cX; cX; cO] (rro i_vphsubsw_xxo) r_vphsubsw_xxo VlRegs;
  mkEntry "vpsignb/xxo" [cX; cX; cO] (rro i_vpsignb_xxo) r_vpsignb_xxo VlRegs;
  mkEntry "vpsignw/xxo" [cX; cX; cO] (rro i_vpsignw_xxo) r_vpsignw_xxo VlRegs;
  mkEntry "vpsignd/xxo" [cX; cX; cO] (rro i_vpsignd_xxo) r_vpsignd_xxo VlRegs;
  mkEntry "vpermd/yyo" [cY; cY; cO] (rro i_vpermd) r_vpermd_yyo VlRegs;
  mkEntry "vpermps/yyo" [cY; cY; cO] (rro i_vpermps) r_vpermps_yyo VlRegs;
  mkEntry "vpermpd/yyo" [cY; cY; cO] (rro i_vpermpd_yyo) r_vpermpd_yyo VlRegs;
  mkEntry "vpermilps/xxo" [cX; cX; cO] (rro i_vpermilps_xxo) r_vpermilps_xxo VlRegs;
  mkEntry "vpermilpd/xxo" [cX; cX; cO] (rro i_vpermilpd_xxo) r_vpermilpd_xxo VlRegs;
  mkEntry "vpsllw/xxo" [cX; cX; cO] (rro i_vpsllw_xxo) r_vpsllw_xxo VlRegs;
  mkEntry "vpslld/xxo" [cX; cX; cO] (rro i_vpslld_xxo) r_vpslld_xxo VlRegs;
  mkEntry "vpsllq/xxo" [cX; cX; cO] (rro i_vpsllq_xxo) r_vpsllq_xxo VlRegs;
  mkEntry "vpsraw/xxo" [cX; cX; cO] (rro i_vpsraw_xxo) r_vpsraw_xxo VlRegs;
  mkEntry "vpsrad/xxo" [cX; cX; cO] (rro i_vpsrad_xxo) r_vpsrad_xxo VlRegs;
  mkEntry "vpsrlw/xxo" [cX; cX; cO] (rro i_vpsrlw_xxo) r_vpsrlw_xxo VlRegs;
  mkEntry "vpsrld/xxo" [cX; cX; cO] (rro i_vpsrld_xxo) r_vpsrld_xxo VlRegs;
  mkEntry "vpsrlq/xxo" [cX; cX; cO] (rro i_vpsrlq_xxo) r_vpsrlq_xxo VlRegs;
  mkEntry "vpsraq/xxo" [cX; cX; cO] (rro i_vpsraq_xxo) r_vpsraq_xxo VlRegs;
  mkEntry "vpsllvd/xxo" [cX; cX; cO] (rro i_vpsllvd) r_vpsllvd_xxo VlRegs;
  mkEntry "vpsllvq/xxo" [cX; cX; cO] (rro i_vpsllvq) r_vpsllvq_xxo VlRegs;
  mkEntry "vpsrlvd/xxo" [cX; cX; cO] (rro i_vpsrlvd) r_vpsrlvd_xxo VlRegs;
  mkEntry "vpsrlvq/xxo" [cX; cX; cO] (rro i_vpsrlvq) r_vpsrlvq_xxo VlRegs;
  mkEntry "vpsravd/xxo" [cX; cX; cO] (rro i_vpsravd) r_vpsravd_xxo VlRegs;
  mkEntry "vpsravq/xxo" [cX; cX; cO] (rro i_vpsravq) r_vpsravq_xxo VlRegs;
  mkEntry "vpsllvw/xxo" [cX; cX; cO] (rro i_vpsllvw) r_vpsllvw_xxo VlRegs;
  mkEntry "vpsravw/xxo" [cX; cX; cO] (rro i_vpsravw) r_vpsravw_xxo VlRegs;
  mkEntry "vpsrlvw/xxo" [cX; cX; cO] (rro i_vpsrlvw) r_vpsrlvw_xxo VlRegs;
  mkEntry "vrcpss/xxo" [cX; cX; cO] (rro i_vrcpss_xxo) r_vrcpss_xxo VlRegs;
  mkEntry "vrsqrtss/xxo" [cX; cX; cO] (rro i_vrsqrtss_xxo) r_vrsqrtss_xxo VlRegs;
  mkEntry "vsm4key4/xxo" [cX; cX; cO] (rro i_vsm4key4) r_vsm4key4_xxo VlRegs;
  mkEntry "vsm4rnds4/xxo" [cX; cX; cO] (rro i_vsm4rnds4) r_vsm4rnds4_xxo VlRegs;
  mkEntry "vsqrtss/xxo" [cX; cX; cO] (rro i_vsqrtss_xxo) r_vsqrtss_xxo VlRegs;
  mkEntry "vsqrtsd/xxo" [cX; cX; cO] (rro i_vsqrtsd_xxo) r_vsqrtsd_xxo VlRegs;
  mkEntry "vsqrtsh/xxo" [cX; cX; cO] (rro i_vsqrtsh) r_vsqrtsh_xxo VlRegs;
  mkEntry "vunpcklps/xxo" [cX; cX; cO] (rro i_vunpcklps_xxo) r_vunpcklps_xxo VlRegs;
  mkEntry "vunpcklpd/xxo" [cX; cX; cO] (rro i_vunpcklpd_xxo) r_vunpcklpd_xxo VlRegs;
  mkEntry "vunpckhps/xxo" [cX; cX; cO] (rro i_vunpckhps_xxo) r_vunpckhps_xxo VlRegs;
  mkEntry "vunpckhpd/xxo" [cX; cX; cO] (rro i_vunpckhpd_xxo) r_vunpckhpd_xxo VlRegs;
  mkEntry "vblendmps/xxo" [cX; cX; cO] (rro i_vblendmps) r_vblendmps_xxo VlRegs;
  mkEntry "vblendmpd/xxo" [cX; cX; cO] (rro i_vblendmpd) r_vblendmpd_xxo VlRegs;
  mkEntry "vpblendmb/xxo" [cX; cX; cO] (rro i_vpblendmb) r_vpblendmb_xxo VlRegs;
  mkEntry "vpblendmw/xxo" [cX; cX; cO] (rro i_vpblendmw) r_vpblendmw_xxo VlRegs;
  mkEntry "vpblendmd/xxo" [cX; cX; cO] (rro i_vpblendmd) r_vpblendmd_xxo VlRegs;
  mkEntry "vpblendmq/xxo" [cX; cX; cO] (rro i_vpblendmq) r_vpblendmq_xxo VlRegs;
  mkEntry "vcvt2ps2phx/xxo" [cX; cX; cO] (rro i_vcvt2ps2phx) r_vcvt2ps2phx_xxo VlRegs;
  mkEntry "vcvtsd2sh/xxo" [cX; cX; cO] (rro i_vcvtsd2sh) r_vcvtsd2sh_xxo VlRegs;
  mkEntry "vcvtsh2sd/xxo" [cX; cX; cO] (rro i_vcvtsh2sd) r_vcvtsh2sd_xxo VlRegs;
  mkEntry "vcvtsh2ss/xxo" [cX; cX; cO] (rro i_vcvtsh2ss) r_vcvtsh2ss_xxo VlRegs;
  mkEntry "vcvtss2sh/xxo" [cX; cX; cO] (rro i_vcvtss2sh) r_vcvtss2sh_xxo VlRegs;
  mkEntry "vdpphps/xxo" [cX; cX; cO] (rro i_vdpphps) r_vdpphps_xxo VlRegs;
  mkEntry "vfcmaddcph/xxo" [cX; cX; cO] (rro i_vfcmaddcph) r_vfcmaddcph_xxo VlRegs;
  mkEntry "vfmaddcph/xxo" [cX; cX; cO] (rro i_vfmaddcph) r_vfmaddcph_xxo VlRegs;
  mkEntry "vfcmulcph/xxo" [cX; cX; cO] (rro i_vfcmulcph) r_vfcmulcph_xxo VlRegs;
  mkEntry "vfmulcph/xxo" [cX; cX; cO] (rro i_vfmulcph) r_vfmulcph_xxo VlRegs;
  mkEntry "vgetexpss/xxo" [cX; cX; cO] (rro i_vgetexpss) r_vgetexpss_xxo VlRegs;
  mkEntry "vgetexpsd/xxo" [cX; cX; cO] (rro i_vgetexpsd) r_vgetexpsd_xxo VlRegs;
  mkEntry "vgetexpsh/xxo" [cX; cX; cO] (rro i_vgetexpsh) r_vgetexpsh_xxo VlRegs;
  mkEntry "vpandd/xxo" [cX; cX; cO] (rro i_vpandd) r_vpandd_xxo VlRegs;
  mkEntry "vpandq/xxo" [cX; cX; cO] (rro i_vpandq) r_vpandq_xxo VlRegs;
  mkEntry "vpandnd/xxo" [cX; cX; cO] (rro i_vpandnd) r_vpandnd_xxo VlRegs;
  mkEntry "vpandnq/xxo" [cX; cX; cO] (rro i_vpandnq) r_vpandnq_xxo VlRegs;
  mkEntry "vpord/xxo" [cX; cX; cO] (rro i_vpord) r_vpord_xxo VlRegs;
  mkEntry "vporq/xxo" [cX; cX; cO] (rro i_vporq) r_vporq_xxo VlRegs;
  mkEntry "vpxord/xxo" [cX; cX; cO] (rro i_vpxord) r_vpxord_xxo VlRegs;
  mkEntry "vpxorq/xxo" [cX; cX; cO] (rro i_vpxorq) r_vpxorq_xxo VlRegs;
  mkEntry "vpermb/xxo" [cX; cX; cO] (rro i_vpermb) r_vpermb_xxo VlRegs;
  mkEntry "vpermw/xxo" [cX; cX; cO] (rro i_vpermw) r_vpermw_xxo VlRegs;
  mkEntry "vpermi2b/xxo" [cX; cX; cO] (rro i_vpermi2b) r_vpermi2b_xxo VlRegs;
  mkEntry "vpermi2w/xxo" [cX; cX; cO] (rro i_vpermi2w) r_vpermi2w_xxo VlRegs;
  mkEntry "vpermi2d/xxo" [cX; cX; cO] (rro i_vpermi2d) r_vpermi2d_xxo VlRegs;
  mkEntry "vpermi2q/xxo" [cX; cX; cO] (rro i_vpermi2q) r_vpermi2q_xxo VlRegs;
  mkEntry "vpermi2ps/xxo" [cX; cX; cO] (rro i_vpermi2ps) r_vpermi2ps_xxo VlRegs;
  mkEntry "vpermi2pd/xxo" [cX; cX; cO] (rro i_vpermi2pd) r_vpermi2pd_xxo VlRegs;
  mkEntry "vpermt2b/xxo" [cX; cX; cO] (rro i_vpermt2b) r_vpermt2b_xxo VlRegs;
  mkEntry "vpermt2w/xxo" [cX; cX; cO] (rro i_vpermt2w) r_vpermt2w_xxo VlRegs;
  mkEntry "vpermt2d/xxo" [cX; cX; cO] (rro i_vpermt2d) r_vpermt2d_xxo VlRegs;
  mkEntry "vpermt2q/xxo" [cX; cX; cO] (rro i_vpermt2q) r_vpermt2q_xxo VlRegs;
  mkEntry "vpermt2ps/xxo" [cX; cX; cO] (rro i_vpermt2ps) r_vpermt2ps_xxo VlRegs;
  mkEntry "vpermt2pd/xxo" [cX; cX; cO] (rro i_vpermt2pd) r_vpermt2pd_xxo VlRegs;
  mkEntry "vpmadd52luq/xxo" [cX; cX; cO] (rro i_vpmadd52luq) r_vpmadd52luq_xxo VlRegs;
  mkEntry "vpmadd52huq/xxo" [cX; cX; cO] (rro i_vpmadd52huq) r_vpmadd52huq_xxo VlRegs;
  mkEntry "vpmaxsq/xxo" [cX; cX; cO] (rro i_vpmaxsq) r_vpmaxsq_xxo VlRegs;
  mkEntry "vpmaxuq/xxo" [cX; cX; cO] (rro i_vpmaxuq) r_vpmaxuq_xxo VlRegs;
  mkEntry "vpminsq/xxo" [cX; cX; cO] (rro i_vpminsq) r_vpminsq_xxo VlRegs;
  mkEntry "vpminuq/xxo" [cX; cX; cO] (rro i_vpminuq) r_vpminuq_xxo VlRegs;
  mkEntry "vpmullq/xxo" [cX; cX; cO] (rro i_vpmullq) r_vpmullq_xxo VlRegs;
  mkEntry "vpmultishiftqb/xxo" [cX; cX; cO] (rro i_vpmultishiftqb) r_vpmultishiftqb_xxo VlRegs;
  mkEntry "vprolvd/xxo" [cX; cX; cO] (rro i_vprolvd) r_vprolvd_xxo VlRegs;
  mkEntry "vprolvq/xxo" [cX; cX; cO] (rro i_vprolvq) r_vprolvq_xxo VlRegs;
  mkEntry "vprorvd/xxo" [cX; cX; cO] (rro i_vprorvd) r_vprorvd_xxo VlRegs;
  mkEntry "vprorvq/xxo" [cX; cX; cO] (rro i_vprorvq) r_vprorvq_xxo VlRegs;
  mkEntry "vrcp14ss/xxo" [cX; cX; cO] (rro i_vrcp14ss) r_vrcp14ss_xxo VlRegs;
  mkEntry "vrcp14sd/xxo" [cX; cX; cO] (rro i_vrcp14sd) r_vrcp14sd_xxo VlRegs;
  mkEntry "vrcp28ss/xxo" [cX; cX; cO] (rro i_vrcp28ss) r_vrcp28ss_xxo VlRegs;
  mkEntry "vrcp28sd/xxo" [cX; cX; cO] (rro i_vrcp28sd) r_vrcp28sd_xxo VlRegs;
  mkEntry "vrcpsh/xxo" [cX; cX; cO] (rro i_vrcpsh) r_vrcpsh_xxo VlRegs;
  mkEntry "vrsqrt14ss/xxo" [cX; cX; cO] (rro i_vrsqrt14ss) r_vrsqrt14ss_xxo VlRegs;
  mkEntry "vrsqrt14sd/xxo" [cX; cX; cO] (rro i_vrsqrt14sd) r_vrsqrt14sd_xxo VlRegs;
  mkEntry "vrsqrt28ss/xxo" [cX; cX; cO] (rro i_vrsqrt28ss) r_vrsqrt28ss_xxo VlRegs;
  mkEntry "vrsqrt28sd/xxo" [cX; cX; cO] (rro i_vrsqrt28sd) r_vrsqrt28sd_xxo VlRegs;
  mkEntry "vrsqrtsh/xxo" [cX; cX; cO] (rro i_vrsqrtsh) r_vrsqrtsh_xxo VlRegs;
  mkEntry "vscalefps/xxo" [cX; cX; cO] (rro i_vscalefps) r_vscalefps_xxo VlRegs;
  mkEntry "vscalefpd/xxo" [cX; cX; cO] (rro i_vscalefpd) r_vscalefpd_xxo VlRegs;
  mkEntry "vscalefss/xxo" [cX; cX; cO] (rro i_vscalefss) r_vscalefss_xxo VlRegs;
  mkEntry "vscalefsd/xxo" [cX; cX; cO] (rro i_vscalefsd) r_vscalefsd_xxo VlRegs;
  mkEntry "vscalefph/xxo" [cX; cX; cO] (rro i_vscalefph) r_vscalefph_xxo VlRegs;
  mkEntry "vscalefsh/xxo" [cX; cX; cO] (rro i_vscalefsh) r_vscalefsh_xxo VlRegs;
  mkEntry "vscalefpbf16/xxo" [cX; cX; cO] (rro i_vscalefpbf16_xxo) r_vscalefpbf16_xxo VlRegs
].
Lemma tab1_ok : Forall (implements true) tab1.
Proof.
  unfold tab1. do 288 (apply Forall_cons; [eapply impl_rvm; [reflexivity|reflexivity|discriminate|chk|rcm|reflexivity|reflexivity]|]). apply Forall_nil.
Qed.

Definition tab2 : list entry := [
  mkEntry "vblendps/xxoi" [cX; cX; cO] (rroi i_vblendps_xxoi) r_vblendps_xxoi VlRegs;
  mkEntry "vblendpd/xxoi" [cX; cX; cO] (rroi i_vblendpd_xxoi) r_vblendpd_xxoi VlRegs;
  mkEntry "vcmpps/xxoi" [cX; cX; cO] (rroi i_vcmpps_xxoi) r_vcmpps_xxoi VlRegs;
  mkEntry "vcmppd/xxoi" [cX; cX; cO] (rroi i_vcmppd_xxoi) r_vcmppd_xxoi VlRegs;
  mkEntry "vcmpss/xxoi" [cX; cX; cO] (rroi i_vcmpss_xxoi) r_vcmpss_xxoi VlRegs;
  mkEntry "vcmpsd/xxoi" [cX; cX; cO] (rroi i_vcmpsd_xxoi) r_vcmpsd_xxoi VlRegs;
  mkEntry "vdpps/xxoi" [cX; cX; cO] (rroi i_vdpps_xxoi) r_vdpps_xxoi VlRegs;
  mkEntry "vdppd/xxoi" [cX; cX; cO] (rroi i_vdppd_xxoi) r_vdppd_xxoi VlRegs;
  mkEntry "vinsertps/xxoi" [cX; cX; cO] (rroi i_vinsertps_xxoi) r_vinsertps_xxoi VlRegs;
  mkEntry "vpalignr/xxoi" [cX; cX; cO] (rroi i_vpalignr_xxoi) r_vpalignr_xxoi VlRegs;
  mkEntry "vpblendd/xxoi" [cX; cX; cO] (rroi i_vpblendd_xxoi) r_vpblendd_xxoi VlRegs;
  mkEntry "vpblendw/xxoi" [cX; cX; cO] (rroi i_vpblendw_xxoi) r_vpblendw_xxoi VlRegs;
  mkEntry "vpclmulqdq/xxoi" [cX; cX; cO] (rroi i_vpclmulqdq_xxoi) r_vpclmulqdq_xxoi VlRegs;
  mkEntry "vroundss/xxoi" [cX; cX; cO] (rroi i_vroundss_xxoi) r_vroundss_xxoi VlRegs;
  mkEntry "vroundsd/xxoi" [cX; cX; cO] (rroi i_vroundsd_xxoi) r_vroundsd_xxoi VlRegs;
  mkEntry "vshufps/xxoi" [cX; cX; cO] (rroi i_vshufps_xxoi) r_vshufps_xxoi VlRegs;
  mkEntry "vshufpd/xxoi" [cX; cX; cO] (rroi i_vshufpd_xxoi) r_vshufpd_xxoi VlRegs;
  mkEntry "valignd/xxoi" [cX; cX; cO] (rroi i_valignd) r_valignd_xxoi VlRegs;
  mkEntry "valignq/xxoi" [cX; cX; cO] (rroi i_valignq) r_valignq_xxoi VlRegs;
  mkEntry "vdbpsadbw/xxoi" [cX; cX; cO] (rroi i_vdbpsadbw) r_vdbpsadbw_xxoi VlRegs;
  mkEntry "vfixupimmps/xxoi" [cX; cX; cO] (rroi i_vfixupimmps) r_vfixupimmps_xxoi VlRegs;
  mkEntry "vfixupimmpd/xxoi" [cX; cX; cO] (rroi i_vfixupimmpd) r_vfixupimmpd_xxoi VlRegs;
  mkEntry "vfixupimmss/xxoi" [cX; cX; cO] (rroi i_vfixupimmss) r_vfixupimmss_xxoi VlRegs;
  mkEntry "vfixupimmsd/xxoi" [cX; cX; cO] (rroi i_vfixupimmsd) r_vfixupimmsd_xxoi VlRegs;
  mkEntry "vgetmantss/xxoi" [cX; cX; cO] (rroi i_vgetmantss) r_vgetmantss_xxoi VlRegs;
  mkEntry "vgetmantsd/xxoi" [cX; cX; cO] (rroi i_vgetmantsd) r_vgetmantsd_xxoi VlRegs;
  mkEntry "vgetmantsh/xxoi" [cX; cX; cO] (rroi i_vgetmantsh) r_vgetmantsh_xxoi VlRegs;
  mkEntry "vminmaxps/xxoi" [cX; cX; cO] (rroi i_vminmaxps) r_vminmaxps_xxoi VlRegs;
  mkEntry "vminmaxpd/xxoi" [cX; cX; cO] (rroi i_vminmaxpd) r_vminmaxpd_xxoi VlRegs;
  mkEntry "vminmaxss/xxoi" [cX; cX; cO] (rroi i_vminmaxss) r_vminmaxss_xxoi VlRegs;
  mkEntry "vminmaxsd/xxoi" [cX; cX; cO] (rroi i_vminmaxsd) r_vminmaxsd_xxoi VlRegs;
  mkEntry "vminmaxph/xxoi" [cX; cX; cO] (rroi i_vminmaxph) r_vminmaxph_xxoi VlRegs;
  mkEntry "vminmaxsh/xxoi" [cX; cX; cO] (rroi i_vminmaxsh) r_vminmaxsh_xxoi VlRegs;
  mkEntry "vminmaxnepbf16/xxoi" [cX; cX; cO] (rroi i_vminmaxnepbf16) r_vminmaxnepbf16_xxoi VlRegs;
  mkEntry "vpternlogd/xxoi" [cX; cX; cO] (rroi i_vpternlogd) r_vpternlogd_xxoi VlRegs;
  mkEntry "vpternlogq/xxoi" [cX; cX; cO] (rroi i_vpternlogq) r_vpternlogq_xxoi VlRegs;
  mkEntry "vrangeps/xxoi" [cX; cX; cO] (rroi i_vrangeps) r_vrangeps_xxoi VlRegs;
  mkEntry "vrangepd/xxoi" [cX; cX; cO] (rroi i_vrangepd) r_vrangepd_xxoi VlRegs;
  mkEntry "vrangess/xxoi" [cX; cX; cO] (rroi i_vrangess) r_vrangess_xxoi VlRegs;
  mkEntry "vrangesd/xxoi" [cX; cX; cO] (rroi i_vrangesd) r_vrangesd_xxoi VlRegs;
  mkEntry "vreducess/xxoi" [cX; cX; cO] (rroi i_vreducess) r_vreducess_xxoi VlRegs;
  mkEntry "vreducesd/xxoi" [cX; cX; cO] (rroi i_vreducesd) r_vreducesd_xxoi VlRegs;
  mkEntry "vreducesh/xxoi" [cX; cX; cO] (rroi i_vreducesh) r_vreducesh_xxoi VlRegs;
  mkEntry "vrndscalesd/xxoi" [cX; cX; cO] (rroi i_vrndscalesd) r_vrndscalesd_xxoi VlRegs;
  mkEntry "vrndscaless/xxoi" [cX; cX; cO] (rroi i_vrndscaless) r_vrndscaless_xxoi VlRegs;
  mkEntry "vrndscalesh/xxoi" [cX; cX; cO] (rroi i_vrndscalesh) r_vrndscalesh_xxoi VlRegs;
  mkEntry "vshuff32x4/yyoi" [cY; cY; cO] (rroi i_vshuff32x4) r_vshuff32x4_yyoi VlRegs;
  mkEntry "vshuff64x2/yyoi" [cY; cY; cO] (rroi i_vshuff64x2) r_vshuff64x2_yyoi VlRegs;
  mkEntry "vshufi32x4/yyoi" [cY; cY; cO] (rroi i_vshufi32x4) r_vshufi32x4_yyoi VlRegs;
  mkEntry "vshufi64x2/yyoi" [cY; cY; cO] (rroi i_vshufi64x2) r_vshufi64x2_yyoi VlRegs
].
Lemma tab2_ok : Forall (implements true) tab2.
Proof.
  unfold tab2. do 50 (apply Forall_cons; [eapply impl_rvmi; [reflexivity|reflexivity|discriminate|chk|rcm|reflexivity|reflexivity]|]). apply Forall_nil.
Qed.

Definition tab3 : list entry := [
  mkEntry "vblendvps/xxox" [cX; cX; cO; cX4] (rror i_vblendvps_xxox) r_vblendvps_xxox VlRegs;
  mkEntry "vblendvpd/xxox" [cX; cX; cO; cX4] (rror i_vblendvpd_xxox) r_vblendvpd_xxox VlRegs;
  mkEntry "vpblendvb/xxox" [cX; cX; cO; cX4] (rror i_vpblendvb_xxox) r_vpblendvb_xxox VlRegs
].
Lemma tab3_ok : Forall (implements true) tab3.
Proof.
  unfold tab3. do 3 (apply Forall_cons; [eapply impl_rvm4; [reflexivity|reflexivity|discriminate|chk|rcm|reflexivity|reflexivity]|]). apply Forall_nil.
Qed.

Definition tab4 : list entry := [
  mkEntry "vgf2p8affineqb/xxoi" [cX; cX; cO] (rroi i_vgf2p8affineqb) r_vgf2p8affineqb_xxoi VlRegs;
  mkEntry "vgf2p8affineinvqb/xxoi" [cX; cX; cO] (rroi i_vgf2p8affineinvqb) r_vgf2p8affineinvqb_xxoi VlRegs;
  mkEntry "vpshldd/xxoi" [cX; cX; cO] (rroi i_vpshldd) r_vpshldd_xxoi VlRegs;
  mkEntry "vpshldq/xxoi" [cX; cX; cO] (rroi i_vpshldq) r_vpshldq_xxoi VlRegs;
  mkEntry "vpshldw/xxoi" [cX; cX; cO] (rroi i_vpshldw) r_vpshldw_xxoi VlRegs;
  mkEntry "vpshrdd/xxoi" [cX; cX; cO] (rroi i_vpshrdd) r_vpshrdd_xxoi VlRegs;
  mkEntry "vpshrdq/xxoi" [cX; cX; cO] (rroi i_vpshrdq) r_vpshrdq_xxoi VlRegs;
  mkEntry "vpshrdw/xxoi" [cX; cX; cO] (rroi i_vpshrdw) r_vpshrdw_xxoi VlRegs
].
Lemma tab4_ok : Forall (implements false) tab4.
Proof.
  unfold tab4. do 8 (apply Forall_cons; [eapply impl_rvmi; [reflexivity|reflexivity|discriminate|chk|rcm|reflexivity|reflexivity]|]). apply Forall_nil.
Qed.

Definition tab5 : list entry := [
  mkEntry "vgf2p8mulb/xxo" [cX; cX; cO] (rro i_vgf2p8mulb) r_vgf2p8mulb_xxo VlRegs;
  mkEntry "vcvtne2ps2bf16/xxo" [cX; cX; cO] (rro i_vcvtne2ps2bf16) r_vcvtne2ps2bf16_xxo VlRegs;
  mkEntry "vdpbf16ps/xxo" [cX; cX; cO] (rro i_vdpbf16ps) r_vdpbf16ps_xxo VlRegs;
  mkEntry "vpshldvd/xxo" [cX; cX; cO] (rro i_vpshldvd) r_vpshldvd_xxo VlRegs;
  mkEntry "vpshldvq/xxo" [cX; cX; cO] (rro i_vpshldvq) r_vpshldvq_xxo VlRegs;
  mkEntry "vpshldvw/xxo" [cX; cX; cO] (rro i_vpshldvw) r_vpshldvw_xxo VlRegs;
  mkEntry "vpshrdvd/xxo" [cX; cX; cO] (rro i_vpshrdvd) r_vpshrdvd_xxo VlRegs;
  mkEntry "vpshrdvq/xxo" [cX; cX; cO] (rro i_vpshrdvq) r_vpshrdvq_xxo VlRegs;
  mkEntry "vpshrdvw/xxo" [cX; cX; cO] (rro i_vpshrdvw) r_vpshrdvw_xxo VlRegs
].
Lemma tab5_ok : Forall (implements false) tab5.
Proof.
  unfold tab5. do 9 (apply Forall_cons; [eapply impl_rvm; [reflexivity|reflexivity|discriminate|chk|rcm|reflexivity|reflexivity]|]). apply Forall_nil.
Qed.

Definition tab6 : list entry := [
  mkEntry "vlddqu/xa" [cX; cA] (ra i_vlddqu) r_vlddqu_xa VlRegs
].
Lemma tab6_ok : Forall (implements true) tab6.
Proof.
  unfold tab6. do 1 (apply Forall_cons; [eapply impl_rm_a'; [reflexivity|chk|rcm|reflexivity|reflexivity]|]). apply Forall_nil.
Qed.

Definition tab7 : list entry := [
  mkEntry "vldmxcsr/a" [cA] (a1 i_vldmxcsr) r_vldmxcsr_a VlRegs;
  mkEntry "vstmxcsr/a" [cA] (a1 i_vstmxcsr) r_vstmxcsr_a VlRegs
].
Lemma tab7_ok : Forall (implements true) tab7.
Proof.
  unfold tab7. do 2 (apply Forall_cons; [apply impl_md; [chk|rcm|reflexivity|reflexivity|lia|reflexivity]|]). apply Forall_nil.
Qed.

Definition tab8 : list entry := [
  mkEntry "vmaskmovdqu/xx" [cX; cX] (rr i_vmaskmovdqu) r_vmaskmovdqu_xx VlRegs;
  mkEntry "vmovq/xx" [cX; cX] (rr i_vmovq_xx) r_vmovq_xx VlRegs
].
Lemma tab8_ok : Forall (implements true) tab8.
Proof.
  unfold tab8. do 2 (apply Forall_cons; [eapply impl_rm0_r; [reflexivity|discriminate|chk|rcm|reflexivity|reflexivity]|]). apply Forall_nil.
Qed.

Definition tab9 : list entry := [
  mkEntry "vmaskmovps/xxa" [cX; cX; cA] (rra i_vmaskmovps_xxa) r_vmaskmovps_xxa VlRegs;
  mkEntry "vmaskmovpd/xxa" [cX; cX; cA] (rra i_vmaskmovpd_xxa) r_vmaskmovpd_xxa VlRegs;
  mkEntry "vpmaskmovd/xxa" [cX; cX; cA] (rra i_vpmaskmovd_xxa) r_vpmaskmovd_xxa VlRegs;
  mkEntry "vpmaskmovq/xxa" [cX; cX; cA] (rra i_vpmaskmovq_xxa) r_vpmaskmovq_xxa VlRegs;
  mkEntry "v4fmaddps/zza" [cZ; cZ; cA] (rra i_v4fmaddps) r_v4fmaddps_zza VlRegs;
  mkEntry "v4fnmaddps/zza" [cZ; cZ; cA] (rra i_v4fnmaddps) r_v4fnmaddps_zza VlRegs;
  mkEntry "v4fmaddss/xxa" [cX; cX; cA] (rra i_v4fmaddss) r_v4fmaddss_xxa VlRegs;
  mkEntry "v4fnmaddss/xxa" [cX; cX; cA] (rra i_v4fnmaddss) r_v4fnmaddss_xxa VlRegs;
  mkEntry "vp4dpwssd/zza" [cZ; cZ; cA] (rra i_vp4dpwssd) r_vp4dpwssd_zza VlRegs;
  mkEntry "vp4dpwssds/zza" [cZ; cZ; cA] (rra i_vp4dpwssds) r_vp4dpwssds_zza VlRegs
].
Lemma tab9_ok : Forall (implements true) tab9.
Proof.
  unfold tab9. do 10 (apply Forall_cons; [eapply impl_rvm_a; [reflexivity|reflexivity|discriminate|chk|rcm|reflexivity|reflexivity|reflexivity]|]). apply Forall_nil.
Qed.

Definition tab10 : list entry := [
  mkEntry "vmaskmovps/axx" [cA; cX; cX] (arr i_vmaskmovps_axx) r_vmaskmovps_axx VlRegs;
  mkEntry "vmaskmovpd/axx" [cA; cX; cX] (arr i_vmaskmovpd_axx) r_vmaskmovpd_axx VlRegs;
  mkEntry "vpmaskmovd/axx" [cA; cX; cX] (arr i_vpmaskmovd_axx) r_vpmaskmovd_axx VlRegs;
  mkEntry "vpmaskmovq/axx" [cA; cX; cX] (arr i_vpmaskmovq_axx) r_vpmaskmovq_axx VlRegs
].
Lemma tab10_ok : Forall (implements true) tab10.
Proof.
  unfold tab10. do 4 (apply Forall_cons; [eapply impl_mvr; [reflexivity|reflexivity|chk|rcm|reflexivity|reflexivity]|]). apply Forall_nil.
Qed.

Definition tab11 : list entry := [
  mkEntry "vmovhlps/xxo" [cX; cX; cX] (rro i_vmovhlps) r_vmovhlps_xxo VlRegs;
  mkEntry "vmovlhps/xxo" [cX; cX; cX] (rro i_vmovlhps) r_vmovlhps_xxo VlRegs;
  mkEntry "vmovss/xxo" [cX; cX; cX] (rro i_vmovss_xxo) r_vmovss_xxo VlRegs;
  mkEntry "vmovsd/xxo" [cX; cX; cX] (rro i_vmovsd_xxo) r_vmovsd_xxo VlRegs
].
Lemma tab11_ok : Forall (implements true) tab11.
Proof.
  apply Forall_cons; [apply (below_rro _ _ _ _ _ _ (fun a b o => opAVX_X_X_XM a (OReg b) o ((T_0F ||| T_EVEX) ||| T_EW0) 0x12 NONE)); [gred i_vmovhlps|eapply impl_rvm; [reflexivity|reflexivity|discriminate|chk|rcm|reflexivity|reflexivity]]|].
  apply Forall_cons; [apply (below_rro _ _ _ _ _ _ (fun a b o => opAVX_X_X_XM a (OReg b) o ((T_0F ||| T_EVEX) ||| T_EW0) 0x16 NONE)); [gred i_vmovlhps|eapply impl_rvm; [reflexivity|reflexivity|discriminate|chk|rcm|reflexivity|reflexivity]]|].
  apply Forall_cons; [apply (below_rro _ _ _ _ _ _ (fun a b o => opAVX_X_X_XM a (OReg b) o ((((T_N4 ||| T_F3) ||| T_0F) ||| T_EW0) ||| T_EVEX) 0x10 NONE)); [gred i_vmovss_xxo|eapply impl_rvm; [reflexivity|reflexivity|discriminate|chk|rcm|reflexivity|reflexivity]]|].
  apply Forall_cons; [apply (below_rro _ _ _ _ _ _ (fun a b o => opAVX_X_X_XM a (OReg b) o ((((T_N8 ||| T_F2) ||| T_0F) ||| T_EW1) ||| T_EVEX) 0x10 NONE)); [gred i_vmovsd_xxo|eapply impl_rvm; [reflexivity|reflexivity|discriminate|chk|rcm|reflexivity|reflexivity]]|].
  apply Forall_nil.
Qed.

Definition tab12 : list entry := [
  mkEntry "vmovhps/xoo" [cX; cX; cA] (roo i_vmovhps_xoo) r_vmovhps_xoo VlRegs;
  mkEntry "vmovhpd/xoo" [cX; cX; cA] (roo i_vmovhpd_xoo) r_vmovhpd_xoo VlRegs;
  mkEntry "vmovlps/xoo" [cX; cX; cA] (roo i_vmovlps_xoo) r_vmovlps_xoo VlRegs;
  mkEntry "vmovlpd/xoo" [cX; cX; cA] (roo i_vmovlpd_xoo) r_vmovlpd_xoo VlRegs
].
Lemma tab12_ok : Forall (implements true) tab12.
Proof.
  apply Forall_cons; [apply (below_roo _ _ _ _ _ _ (fun a b o => opAVX_X_X_XM a b o (((T_N8 ||| T_0F) ||| T_EW0) ||| T_EVEX) 0x16 NONE)); [gred i_vmovhps_xoo|eapply impl_rvm_oo; [reflexivity|reflexivity|discriminate|chk|rcm|reflexivity|reflexivity]]|].
  apply Forall_cons; [apply (below_roo _ _ _ _ _ _ (fun a b o => opAVX_X_X_XM a b o ((((T_N8 ||| T_66) ||| T_0F) ||| T_EW1) ||| T_EVEX) 0x16 NONE)); [gred i_vmovhpd_xoo|eapply impl_rvm_oo; [reflexivity|reflexivity|discriminate|chk|rcm|reflexivity|reflexivity]]|].
  apply Forall_cons; [apply (below_roo _ _ _ _ _ _ (fun a b o => opAVX_X_X_XM a b o (((T_N8 ||| T_0F) ||| T_EW0) ||| T_EVEX) 0x12 NONE)); [gred i_vmovlps_xoo|eapply impl_rvm_oo; [reflexivity|reflexivity|discriminate|chk|rcm|reflexivity|reflexivity]]|].
  apply Forall_cons; [apply (below_roo _ _ _ _ _ _ (fun a b o => opAVX_X_X_XM a b o ((((T_N8 ||| T_66) ||| T_0F) ||| T_EW1) ||| T_EVEX) 0x12 NONE)); [gred i_vmovlpd_xoo|eapply impl_rvm_oo; [reflexivity|reflexivity|discriminate|chk|rcm|reflexivity|reflexivity]]|].
  apply Forall_nil.
Qed.

Definition tab13 : list entry := [
  mkEntry "vmovhps/ax" [cA; cX] (ar i_vmovhps_ax) r_vmovhps_ax VlRegs;
  mkEntry "vmovhpd/ax" [cA; cX] (ar i_vmovhpd_ax) r_vmovhpd_ax VlRegs;
  mkEntry "vmovlps/ax" [cA; cX] (ar i_vmovlps_ax) r_vmovlps_ax VlRegs;
  mkEntry "vmovlpd/ax" [cA; cX] (ar i_vmovlpd_ax) r_vmovlpd_ax VlRegs;
  mkEntry "vmovss/ax" [cA; cX] (ar i_vmovss_ax) r_vmovss_ax VlRegs;
  mkEntry "vmovsd/ax" [cA; cX] (ar i_vmovsd_ax) r_vmovsd_ax VlRegs
].
Lemma tab13_ok : Forall (implements true) tab13.
Proof.
  unfold tab13. do 6 (apply Forall_cons; [eapply impl_mr0_a; [reflexivity|chk|rcm|reflexivity|reflexivity]|]). apply Forall_nil.
Qed.

Definition tab14 : list entry := [
  mkEntry "vmovmskps/rx" [cRe; cX] (rr i_vmovmskps) r_vmovmskps_rx VlAll;
  mkEntry "vmovmskpd/rx" [cRe; cX] (rr i_vmovmskpd) r_vmovmskpd_rx VlAll
].
Lemma tab14_ok : Forall (implements true) tab14.
Proof.
  apply Forall_cons; [apply (impl_movmsk ((T_0F ||| T_W0) ||| T_YMM) 0x50); [rcm|reflexivity|chk|reflexivity|gred i_vmovmskps]|].
  apply Forall_cons; [apply (impl_movmsk (((T_0F ||| T_66) ||| T_W0) ||| T_YMM) 0x50); [rcm|reflexivity|chk|reflexivity|gred i_vmovmskpd]|].
  apply Forall_nil.
Qed.

Definition tab15 : list entry := [
  mkEntry "vmovq/xq" [cX; cG 64] (rr i_vmovq_xq) r_vmovq_xq VlAll
].
Lemma tab15_ok : Forall (implements true) tab15.
Proof.
  unfold tab15. do 1 (apply Forall_cons; [apply impl_movq_rm; [rcm|reflexivity|chk|reflexivity]|]). apply Forall_nil.
Qed.

Definition tab16 : list entry := [
  mkEntry "vmovq/qx" [cG 64; cX] (rr i_vmovq_qx) r_vmovq_qx VlAll
].
Lemma tab16_ok : Forall (implements true) tab16.
Proof.
  unfold tab16. do 1 (apply Forall_cons; [apply impl_movq_mr; [rcm|reflexivity|chk|reflexivity]|]). apply Forall_nil.
Qed.

Definition tab17 : list entry := [
  mkEntry "vmovss/xa" [cX; cA] (ra i_vmovss_xa) r_vmovss_xa VlRegs;
  mkEntry "vmovsd/xa" [cX; cA] (ra i_vmovsd_xa) r_vmovsd_xa VlRegs;
  mkEntry "vmovsh/xa" [cX; cA] (ra i_vmovsh_xa) r_vmovsh_xa VlRegs
].
Lemma tab17_ok : Forall (implements true) tab17.
Proof.
  unfold tab17. do 3 (apply Forall_cons; [eapply impl_rm0_a; [reflexivity|chk|rcm|reflexivity|reflexivity]|]). apply Forall_nil.
Qed.

Definition tab18 : list entry := [
  mkEntry "vpermq/yoi" [cY; cO] (roi i_vpermq_yoi) r_vpermq_yoi VlRegs;
  mkEntry "vpermpd/yoi" [cY; cO] (roi i_vpermpd_yoi) r_vpermpd_yoi VlRegs;
  mkEntry "vpermilps/xoi" [cX; cO] (roi i_vpermilps_xoi) r_vpermilps_xoi VlRegs;
  mkEntry "vpermilpd/xoi" [cX; cO] (roi i_vpermilpd_xoi) r_vpermilpd_xoi VlRegs;
  mkEntry "vgetmantps/xoi" [cX; cO] (roi i_vgetmantps) r_vgetmantps_xoi VlRegs;
  mkEntry "vgetmantpd/xoi" [cX; cO] (roi i_vgetmantpd) r_vgetmantpd_xoi VlRegs;
  mkEntry "vgetmantph/xoi" [cX; cO] (roi i_vgetmantph) r_vgetmantph_xoi VlRegs;
  mkEntry "vgetmantpbf16/xoi" [cX; cO] (roi i_vgetmantpbf16) r_vgetmantpbf16_xoi VlRegs;
  mkEntry "vaeskeygenassist/xoi" [cX; cO] (roi i_vaeskeygenassist) r_vaeskeygenassist_xoi VlRegs;
  mkEntry "vpcmpestrm/xoi" [cX; cO] (roi i_vpcmpestrm) r_vpcmpestrm_xoi VlRegs;
  mkEntry "vpcmpestri/xoi" [cX; cO] (roi i_vpcmpestri) r_vpcmpestri_xoi VlRegs;
  mkEntry "vpcmpistrm/xoi" [cX; cO] (roi i_vpcmpistrm) r_vpcmpistrm_xoi VlRegs;
  mkEntry "vpcmpistri/xoi" [cX; cO] (roi i_vpcmpistri) r_vpcmpistri_xoi VlRegs;
  mkEntry "vpshufd/xoi" [cX; cO] (roi i_vpshufd) r_vpshufd_xoi VlRegs;
  mkEntry "vpshufhw/xoi" [cX; cO] (roi i_vpshufhw) r_vpshufhw_xoi VlRegs;
  mkEntry "vpshuflw/xoi" [cX; cO] (roi i_vpshuflw) r_vpshuflw_xoi VlRegs;
  mkEntry "vroundps/xoi" [cX; cO] (roi i_vroundps) r_vroundps_xoi VlRegs;
  mkEntry "vroundpd/xoi" [cX; cO] (roi i_vroundpd) r_vroundpd_xoi VlRegs;
  mkEntry "vreduceps/xoi" [cX; cO] (roi i_vreduceps) r_vreduceps_xoi VlRegs;
  mkEntry "vreducepd/xoi" [cX; cO] (roi i_vreducepd) r_vreducepd_xoi VlRegs;
  mkEntry "vreduceph/xoi" [cX; cO] (roi i_vreduceph) r_vreduceph_xoi VlRegs;
  mkEntry "vreducenepbf16/xoi" [cX; cO] (roi i_vreducenepbf16) r_vreducenepbf16_xoi VlRegs;
  mkEntry "vrndscaleps/xoi" [cX; cO] (roi i_vrndscaleps) r_vrndscaleps_xoi VlRegs;
  mkEntry "vrndscalepd/xoi" [cX; cO] (roi i_vrndscalepd) r_vrndscalepd_xoi VlRegs;
  mkEntry "vrndscaleph/xoi" [cX; cO] (roi i_vrndscaleph) r_vrndscaleph_xoi VlRegs;
  mkEntry "vrndscalenepbf16/xoi" [cX; cO] (roi i_vrndscalenepbf16) r_vrndscalenepbf16_xoi VlRegs
].
Lemma tab18_ok : Forall (implements true) tab18.
Proof.
  unfold tab18. do 26 (apply Forall_cons; [eapply impl_rmi; [reflexivity|discriminate|chk|rcm|reflexivity|reflexivity]|]). apply Forall_nil.
Qed.

Definition tab19 : list entry := [
  mkEntry "vpsllw/xoi" [cX; cO] (roi i_vpsllw_xoi) r_vpsllw_xoi VlRegs;
  mkEntry "vpslld/xoi" [cX; cO] (roi i_vpslld_xoi) r_vpslld_xoi VlRegs;
  mkEntry "vpsllq/xoi" [cX; cO] (roi i_vpsllq_xoi) r_vpsllq_xoi VlRegs;
  mkEntry "vpsraw/xoi" [cX; cO] (roi i_vpsraw_xoi) r_vpsraw_xoi VlRegs;
  mkEntry "vpsrad/xoi" [cX; cO] (roi i_vpsrad_xoi) r_vpsrad_xoi VlRegs;
  mkEntry "vpsrlw/xoi" [cX; cO] (roi i_vpsrlw_xoi) r_vpsrlw_xoi VlRegs;
  mkEntry "vpsrld/xoi" [cX; cO] (roi i_vpsrld_xoi) r_vpsrld_xoi VlRegs;
  mkEntry "vpsrlq/xoi" [cX; cO] (roi i_vpsrlq_xoi) r_vpsrlq_xoi VlRegs;
  mkEntry "vpslldq/xoi" [cX; cO] (roi i_vpslldq_xoi) r_vpslldq_xoi VlRegs;
  mkEntry "vpsrldq/xoi" [cX; cO] (roi i_vpsrldq_xoi) r_vpsrldq_xoi VlRegs;
  mkEntry "vpsraq/xoi" [cX; cO] (roi i_vpsraq_xoi) r_vpsraq_xoi VlRegs;
  mkEntry "vprold/xoi" [cX; cO] (roi i_vprold) r_vprold_xoi VlRegs;
  mkEntry "vprolq/xoi" [cX; cO] (roi i_vprolq) r_vprolq_xoi VlRegs;
  mkEntry "vprord/xoi" [cX; cO] (roi i_vprord) r_vprord_xoi VlRegs;
  mkEntry "vprorq/xoi" [cX; cO] (roi i_vprorq) r_vprorq_xoi VlRegs
].
Lemma tab19_ok : Forall (implements true) tab19.
Proof.
  unfold tab19. do 15 (apply Forall_cons; [eapply impl_vmi; [reflexivity|discriminate|chk|rcm|reflexivity|reflexivity|reflexivity]|]). apply Forall_nil.
Qed.

Definition tab20 : list entry := [
  mkEntry "vcvtbiasph2bf8/xxo" [cX; cX; cO] (rro i_vcvtbiasph2bf8) r_vcvtbiasph2bf8_xxo VlAll;
  mkEntry "vcvtbiasph2bf8s/xxo" [cX; cX; cO] (rro i_vcvtbiasph2bf8s) r_vcvtbiasph2bf8s_xxo VlAll;
  mkEntry "vcvtbiasph2hf8/xxo" [cX; cX; cO] (rro i_vcvtbiasph2hf8) r_vcvtbiasph2hf8_xxo VlAll;
  mkEntry "vcvtbiasph2hf8s/xxo" [cX; cX; cO] (rro i_vcvtbiasph2hf8s) r_vcvtbiasph2hf8s_xxo VlAll
].
Lemma tab20_ok : Forall (implements true) tab20.
Proof.
  unfold tab20. do 4 (apply Forall_cons; [apply impl_cvt6; [chk|rcm|reflexivity|reflexivity|reflexivity|reflexivity]|]). apply Forall_nil.
Qed.

Definition tab21 : list entry := [
  mkEntry "vcvtneph2bf8/xo" [cX; cO] (ro i_vcvtneph2bf8) r_vcvtneph2bf8_xo VlHalf;
  mkEntry "vcvtneph2bf8s/xo" [cX; cO] (ro i_vcvtneph2bf8s) r_vcvtneph2bf8s_xo VlHalf;
  mkEntry "vcvtneph2hf8/xo" [cX; cO] (ro i_vcvtneph2hf8) r_vcvtneph2hf8_xo VlHalf;
  mkEntry "vcvtneph2hf8s/xo" [cX; cO] (ro i_vcvtneph2hf8s) r_vcvtneph2hf8s_xo VlHalf;
  mkEntry "vcvtpd2udq/xo" [cX; cO] (ro i_vcvtpd2udq) r_vcvtpd2udq_xo VlHalf;
  mkEntry "vcvttpd2udq/xo" [cX; cO] (ro i_vcvttpd2udq) r_vcvttpd2udq_xo VlHalf;
  mkEntry "vcvtqq2ps/xo" [cX; cO] (ro i_vcvtqq2ps) r_vcvtqq2ps_xo VlHalf;
  mkEntry "vcvtuqq2ps/xo" [cX; cO] (ro i_vcvtuqq2ps) r_vcvtuqq2ps_xo VlHalf;
  mkEntry "vcvttpd2dqs/xo" [cX; cO] (ro i_vcvttpd2dqs) r_vcvttpd2dqs_xo VlHalf;
  mkEntry "vcvttpd2udqs/xo" [cX; cO] (ro i_vcvttpd2udqs) r_vcvttpd2udqs_xo VlHalf;
  mkEntry "vcvtpd2dq/xo" [cX; cO] (ro i_vcvtpd2dq) r_vcvtpd2dq_xo VlHalf;
  mkEntry "vcvttpd2dq/xo" [cX; cO] (ro i_vcvttpd2dq) r_vcvttpd2dq_xo VlHalf;
  mkEntry "vcvtpd2ps/xo" [cX; cO] (ro i_vcvtpd2ps) r_vcvtpd2ps_xo VlHalf
].
Lemma tab21_ok : Forall (implements true) tab21.
Proof.
  unfold tab21. do 13 (apply Forall_cons; [apply impl_cvt2; [chk|rcm|reflexivity|reflexivity]|]). apply Forall_nil.
Qed.

Definition tab22 (enc : PreferredEncoding) : list entry := [
  mkEntry "vcvtneps2bf16/xop" [cX; cO] (ro (fun a o => i_vcvtneps2bf16 a o enc)) r_vcvtneps2bf16_xop VlHalf;
  mkEntry "vpdpbusd/xxop" [cX; cX; cO] (rro (fun a b o => i_vpdpbusd a b o enc)) r_vpdpbusd_xxop VlRegs;
  mkEntry "vpdpbusds/xxop" [cX; cX; cO] (rro (fun a b o => i_vpdpbusds a b o enc)) r_vpdpbusds_xxop VlRegs;
  mkEntry "vpdpwssd/xxop" [cX; cX; cO] (rro (fun a b o => i_vpdpwssd a b o enc)) r_vpdpwssd_xxop VlRegs;
  mkEntry "vpdpwssds/xxop" [cX; cX; cO] (rro (fun a b o => i_vpdpwssds a b o enc)) r_vpdpwssds_xxop VlRegs
].
Lemma tab22_ok enc : Forall (implements false) (tab22 enc).
Proof.
  apply Forall_cons; [apply (either_ro _ _ _ _ _ _ (fun a o => opCvt2 a o ((((((T_F3 ||| T_0F38) ||| T_EW0) ||| T_YMM) ||| T_SAE_Z) ||| T_B32) ||| 0) 0x72) (fun a o => opCvt2 a o ((((((T_F3 ||| T_0F38) ||| T_EW0) ||| T_YMM) ||| T_SAE_Z) ||| T_B32) ||| (T_MUST_EVEX ||| T_MUST_EVEX)) 0x72)); [gred2 i_vcvtneps2bf16|apply impl_cvt2; [chk|rcm|reflexivity|reflexivity]|apply impl_cvt2; [chk|rcm|reflexivity|reflexivity]]|].
  apply Forall_cons; [apply impl_enc; [reflexivity|reflexivity|discriminate|chk|rcm|chk|rcm|reflexivity|reflexivity]|].
  apply Forall_cons; [apply impl_enc; [reflexivity|reflexivity|discriminate|chk|rcm|chk|rcm|reflexivity|reflexivity]|].
  apply Forall_cons; [apply impl_enc; [reflexivity|reflexivity|discriminate|chk|rcm|chk|rcm|reflexivity|reflexivity]|].
  apply Forall_cons; [apply impl_enc; [reflexivity|reflexivity|discriminate|chk|rcm|chk|rcm|reflexivity|reflexivity]|].
  apply Forall_nil.
Qed.

Definition tab23 : list entry := [
  mkEntry "vgetexpps/xo" [cX; cO] (ro i_vgetexpps) r_vgetexpps_xo VlRegs;
  mkEntry "vgetexppd/xo" [cX; cO] (ro i_vgetexppd) r_vgetexppd_xo VlRegs;
  mkEntry "vgetexpph/xo" [cX; cO] (ro i_vgetexpph) r_vgetexpph_xo VlRegs;
  mkEntry "vgetexppbf16/xo" [cX; cO] (ro i_vgetexppbf16) r_vgetexppbf16_xo VlRegs;
  mkEntry "vaesimc/xo" [cX; cO] (ro i_vaesimc) r_vaesimc_xo VlRegs;
  mkEntry "vucomiss/xo" [cX; cO] (ro i_vucomiss) r_vucomiss_xo VlRegs;
  mkEntry "vucomisd/xo" [cX; cO] (ro i_vucomisd) r_vucomisd_xo VlRegs;
  mkEntry "vucomish/xo" [cX; cO] (ro i_vucomish) r_vucomish_xo VlRegs;
  mkEntry "vcomiss/xo" [cX; cO] (ro i_vcomiss) r_vcomiss_xo VlRegs;
  mkEntry "vcomisd/xo" [cX; cO] (ro i_vcomisd) r_vcomisd_xo VlRegs;
  mkEntry "vcomish/xo" [cX; cO] (ro i_vcomish) r_vcomish_xo VlRegs;
  mkEntry "vucomxss/xo" [cX; cO] (ro i_vucomxss) r_vucomxss_xo VlRegs;
  mkEntry "vucomxsd/xo" [cX; cO] (ro i_vucomxsd) r_vucomxsd_xo VlRegs;
  mkEntry "vucomxsh/xo" [cX; cO] (ro i_vucomxsh) r_vucomxsh_xo VlRegs;
  mkEntry "vcomxss/xo" [cX; cO] (ro i_vcomxss) r_vcomxss_xo VlRegs;
  mkEntry "vcomxsd/xo" [cX; cO] (ro i_vcomxsd) r_vcomxsd_xo VlRegs;
  mkEntry "vcomxsh/xo" [cX; cO] (ro i_vcomxsh) r_vcomxsh_xo VlRegs;
  mkEntry "vcomsbf16/xo" [cX; cO] (ro i_vcomsbf16) r_vcomsbf16_xo VlRegs;
  mkEntry "vcvtdq2ps/xo" [cX; cO] (ro i_vcvtdq2ps) r_vcvtdq2ps_xo VlRegs;
  mkEntry "vcvtps2dq/xo" [cX; cO] (ro i_vcvtps2dq) r_vcvtps2dq_xo VlRegs;
  mkEntry "vcvttps2dq/xo" [cX; cO] (ro i_vcvttps2dq) r_vcvttps2dq_xo VlRegs;
  mkEntry "vmovaps/xo" [cX; cO] (ro i_vmovaps_xo) r_vmovaps_xo VlRegs;
  mkEntry "vmovapd/xo" [cX; cO] (ro i_vmovapd_xo) r_vmovapd_xo VlRegs;
  mkEntry "vmovups/xo" [cX; cO] (ro i_vmovups_xo) r_vmovups_xo VlRegs;
  mkEntry "vmovupd/xo" [cX; cO] (ro i_vmovupd_xo) r_vmovupd_xo VlRegs;
  mkEntry "vmovshdup/xo" [cX; cO] (ro i_vmovshdup) r_vmovshdup_xo VlRegs;
  mkEntry "vmovsldup/xo" [cX; cO] (ro i_vmovsldup) r_vmovsldup_xo VlRegs;
  mkEntry "vmovdqa/xo" [cX; cO] (ro i_vmovdqa_xo) r_vmovdqa_xo VlRegs;
  mkEntry "vmovdqu/xo" [cX; cO] (ro i_vmovdqu_xo) r_vmovdqu_xo VlRegs;
  mkEntry "vpabsb/xo" [cX; cO] (ro i_vpabsb) r_vpabsb_xo VlRegs;
  mkEntry "vpabsw/xo" [cX; cO] (ro i_vpabsw) r_vpabsw_xo VlRegs;
  mkEntry "vpabsd/xo" [cX; cO] (ro i_vpabsd) r_vpabsd_xo VlRegs;
  mkEntry "vpabsq/xo" [cX; cO] (ro i_vpabsq) r_vpabsq_xo VlRegs;
  mkEntry "vphminposuw/xo" [cX; cO] (ro i_vphminposuw) r_vphminposuw_xo VlRegs;
  mkEntry "vpmovsxbw/xo" [cX; cO] (ro i_vpmovsxbw) r_vpmovsxbw_xo VlRegs;
  mkEntry "vpmovsxbd/xo" [cX; cO] (ro i_vpmovsxbd) r_vpmovsxbd_xo VlRegs;
  mkEntry "vpmovsxbq/xo" [cX; cO] (ro i_vpmovsxbq) r_vpmovsxbq_xo VlRegs;
  mkEntry "vpmovsxwd/xo" [cX; cO] (ro i_vpmovsxwd) r_vpmovsxwd_xo VlRegs;
  mkEntry "vpmovsxwq/xo" [cX; cO] (ro i_vpmovsxwq) r_vpmovsxwq_xo VlRegs;
  mkEntry "vpmovsxdq/xo" [cX; cO] (ro i_vpmovsxdq) r_vpmovsxdq_xo VlRegs;
  mkEntry "vpmovzxbw/xo" [cX; cO] (ro i_vpmovzxbw) r_vpmovzxbw_xo VlRegs;
  mkEntry "vpmovzxbd/xo" [cX; cO] (ro i_vpmovzxbd) r_vpmovzxbd_xo VlRegs;
  mkEntry "vpmovzxbq/xo" [cX; cO] (ro i_vpmovzxbq) r_vpmovzxbq_xo VlRegs;
  mkEntry "vpmovzxwd/xo" [cX; cO] (ro i_vpmovzxwd) r_vpmovzxwd_xo VlRegs;
  mkEntry "vpmovzxwq/xo" [cX; cO] (ro i_vpmovzxwq) r_vpmovzxwq_xo VlRegs;
  mkEntry "vpmovzxdq/xo" [cX; cO] (ro i_vpmovzxdq) r_vpmovzxdq_xo VlRegs;
  mkEntry "vptest/xo" [cX; cO] (ro i_vptest) r_vptest_xo VlRegs;
  mkEntry "vtestps/xo" [cX; cO] (ro i_vtestps) r_vtestps_xo VlRegs;
  mkEntry "vtestpd/xo" [cX; cO] (ro i_vtestpd) r_vtestpd_xo VlRegs;
  mkEntry "vrcpps/xo" [cX; cO] (ro i_vrcpps) r_vrcpps_xo VlRegs;
  mkEntry "vrsqrtps/xo" [cX; cO] (ro i_vrsqrtps) r_vrsqrtps_xo VlRegs;
  mkEntry "vsqrtps/xo" [cX; cO] (ro i_vsqrtps) r_vsqrtps_xo VlRegs;
  mkEntry "vsqrtpd/xo" [cX; cO] (ro i_vsqrtpd) r_vsqrtpd_xo VlRegs;
  mkEntry "vsqrtph/xo" [cX; cO] (ro i_vsqrtph) r_vsqrtph_xo VlRegs;
  mkEntry "vsqrtnepbf16/xo" [cX; cO] (ro i_vsqrtnepbf16) r_vsqrtnepbf16_xo VlRegs;
  mkEntry "vbroadcastf32x2/yo" [cY; cO] (ro i_vbroadcastf32x2) r_vbroadcastf32x2_yo VlRegs;
  mkEntry "vbroadcasti32x2/xo" [cX; cO] (ro i_vbroadcasti32x2) r_vbroadcasti32x2_xo VlRegs;
  mkEntry "vbroadcasti32x4/yo" [cY; cO] (ro i_vbroadcasti32x4) r_vbroadcasti32x4_yo VlRegs;
  mkEntry "vbroadcasti64x2/yo" [cY; cO] (ro i_vbroadcasti64x2) r_vbroadcasti64x2_yo VlRegs;
  mkEntry "vbroadcasti32x8/zo" [cZ; cO] (ro i_vbroadcasti32x8) r_vbroadcasti32x8_zo VlRegs;
  mkEntry "vbroadcasti64x4/zo" [cZ; cO] (ro i_vbroadcasti64x4) r_vbroadcasti64x4_zo VlRegs;
  mkEntry "vexpandps/xo" [cX; cO] (ro i_vexpandps) r_vexpandps_xo VlRegs;
  mkEntry "vexpandpd/xo" [cX; cO] (ro i_vexpandpd) r_vexpandpd_xo VlRegs;
  mkEntry "vpexpandd/xo" [cX; cO] (ro i_vpexpandd) r_vpexpandd_xo VlRegs;
  mkEntry "vpexpandq/xo" [cX; cO] (ro i_vpexpandq) r_vpexpandq_xo VlRegs;
  mkEntry "vcvtpd2qq/xo" [cX; cO] (ro i_vcvtpd2qq) r_vcvtpd2qq_xo VlRegs;
  mkEntry "vcvtpd2uqq/xo" [cX; cO] (ro i_vcvtpd2uqq) r_vcvtpd2uqq_xo VlRegs;
  mkEntry "vcvttpd2qq/xo" [cX; cO] (ro i_vcvttpd2qq) r_vcvttpd2qq_xo VlRegs;
  mkEntry "vcvttpd2uqq/xo" [cX; cO] (ro i_vcvttpd2uqq) r_vcvttpd2uqq_xo VlRegs;
  mkEntry "vcvtps2udq/xo" [cX; cO] (ro i_vcvtps2udq) r_vcvtps2udq_xo VlRegs;
  mkEntry "vcvttps2udq/xo" [cX; cO] (ro i_vcvttps2udq) r_vcvttps2udq_xo VlRegs;
  mkEntry "vcvtqq2pd/xo" [cX; cO] (ro i_vcvtqq2pd) r_vcvtqq2pd_xo VlRegs;
  mkEntry "vcvtuqq2pd/xo" [cX; cO] (ro i_vcvtuqq2pd) r_vcvtuqq2pd_xo VlRegs;
  mkEntry "vcvtudq2ps/xo" [cX; cO] (ro i_vcvtudq2ps) r_vcvtudq2ps_xo VlRegs;
  mkEntry "vcvtph2w/xo" [cX; cO] (ro i_vcvtph2w) r_vcvtph2w_xo VlRegs;
  mkEntry "vcvtph2uw/xo" [cX; cO] (ro i_vcvtph2uw) r_vcvtph2uw_xo VlRegs;
  mkEntry "vcvttph2w/xo" [cX; cO] (ro i_vcvttph2w) r_vcvttph2w_xo VlRegs;
  mkEntry "vcvttph2uw/xo" [cX; cO] (ro i_vcvttph2uw) r_vcvttph2uw_xo VlRegs;
  mkEntry "vcvtw2ph/xo" [cX; cO] (ro i_vcvtw2ph) r_vcvtw2ph_xo VlRegs;
  mkEntry "vcvtuw2ph/xo" [cX; cO] (ro i_vcvtuw2ph) r_vcvtuw2ph_xo VlRegs;
  mkEntry "vcvtps2ibs/xo" [cX; cO] (ro i_vcvtps2ibs) r_vcvtps2ibs_xo VlRegs;
  mkEntry "vcvtps2iubs/xo" [cX; cO] (ro i_vcvtps2iubs) r_vcvtps2iubs_xo VlRegs;
  mkEntry "vcvtph2ibs/xo" [cX; cO] (ro i_vcvtph2ibs) r_vcvtph2ibs_xo VlRegs;
  mkEntry "vcvtph2iubs/xo" [cX; cO] (ro i_vcvtph2iubs) r_vcvtph2iubs_xo VlRegs;
  mkEntry "vcvtnebf162ibs/xo" [cX; cO] (ro i_vcvtnebf162ibs) r_vcvtnebf162ibs_xo VlRegs;
  mkEntry "vcvtnebf162iubs/xo" [cX; cO] (ro i_vcvtnebf162iubs) r_vcvtnebf162iubs_xo VlRegs;
  mkEntry "vcvttnebf162ibs/xo" [cX; cO] (ro i_vcvttnebf162ibs) r_vcvttnebf162ibs_xo VlRegs;
  mkEntry "vcvttnebf162iubs/xo" [cX; cO] (ro i_vcvttnebf162iubs) r_vcvttnebf162iubs_xo VlRegs;
  mkEntry "vcvttps2dqs/xo" [cX; cO] (ro i_vcvttps2dqs) r_vcvttps2dqs_xo VlRegs;
  mkEntry "vcvttps2udqs/xo" [cX; cO] (ro i_vcvttps2udqs) r_vcvttps2udqs_xo VlRegs;
  mkEntry "vcvttpd2qqs/xo" [cX; cO] (ro i_vcvttpd2qqs) r_vcvttpd2qqs_xo VlRegs;
  mkEntry "vcvttpd2uqqs/xo" [cX; cO] (ro i_vcvttpd2uqqs) r_vcvttpd2uqqs_xo VlRegs;
  mkEntry "vexp2ps/zo" [cZ; cO] (ro i_vexp2ps) r_vexp2ps_zo VlRegs;
  mkEntry "vexp2pd/zo" [cZ; cO] (ro i_vexp2pd) r_vexp2pd_zo VlRegs;
  mkEntry "vrcp28ps/zo" [cZ; cO] (ro i_vrcp28ps) r_vrcp28ps_zo VlRegs;
  mkEntry "vrcp28pd/zo" [cZ; cO] (ro i_vrcp28pd) r_vrcp28pd_zo VlRegs;
  mkEntry "vrsqrt28ps/zo" [cZ; cO] (ro i_vrsqrt28ps) r_vrsqrt28ps_zo VlRegs;
  mkEntry "vrsqrt28pd/zo" [cZ; cO] (ro i_vrsqrt28pd) r_vrsqrt28pd_zo VlRegs;
  mkEntry "vrcp14ps/xo" [cX; cO] (ro i_vrcp14ps) r_vrcp14ps_xo VlRegs;
  mkEntry "vrcp14pd/xo" [cX; cO] (ro i_vrcp14pd) r_vrcp14pd_xo VlRegs;
  mkEntry "vrsqrt14ps/xo" [cX; cO] (ro i_vrsqrt14ps) r_vrsqrt14ps_xo VlRegs;
  mkEntry "vrsqrt14pd/xo" [cX; cO] (ro i_vrsqrt14pd) r_vrsqrt14pd_xo VlRegs;
  mkEntry "vrcpph/xo" [cX; cO] (ro i_vrcpph) r_vrcpph_xo VlRegs;
  mkEntry "vrsqrtph/xo" [cX; cO] (ro i_vrsqrtph) r_vrsqrtph_xo VlRegs;
  mkEntry "vrcppbf16/xo" [cX; cO] (ro i_vrcppbf16) r_vrcppbf16_xo VlRegs;
  mkEntry "vrsqrtpbf16/xo" [cX; cO] (ro i_vrsqrtpbf16) r_vrsqrtpbf16_xo VlRegs;
  mkEntry "vpconflictd/xo" [cX; cO] (ro i_vpconflictd) r_vpconflictd_xo VlRegs;
  mkEntry "vpconflictq/xo" [cX; cO] (ro i_vpconflictq) r_vpconflictq_xo VlRegs;
  mkEntry "vplzcntd/xo" [cX; cO] (ro i_vplzcntd) r_vplzcntd_xo VlRegs;
  mkEntry "vplzcntq/xo" [cX; cO] (ro i_vplzcntq) r_vplzcntq_xo VlRegs
].
Lemma tab23_ok : Forall (implements true) tab23.
Proof.
  unfold tab23. do 110 (apply Forall_cons; [eapply impl_rm; [reflexivity|discriminate|chk|rcm|reflexivity|reflexivity]|]). apply Forall_nil.
Qed.

Definition tab24 : list entry := [
  mkEntry "vmovsh/ax" [cA; cX] (ar i_vmovsh_ax) r_vmovsh_ax VlRegs;
  mkEntry "vmovaps/ax" [cA; cX] (ar i_vmovaps_ax) r_vmovaps_ax VlRegs;
  mkEntry "vmovapd/ax" [cA; cX] (ar i_vmovapd_ax) r_vmovapd_ax VlRegs;
  mkEntry "vmovups/ax" [cA; cX] (ar i_vmovups_ax) r_vmovups_ax VlRegs;
  mkEntry "vmovupd/ax" [cA; cX] (ar i_vmovupd_ax) r_vmovupd_ax VlRegs;
  mkEntry "vmovdqa/ax" [cA; cX] (ar i_vmovdqa_ax) r_vmovdqa_ax VlRegs;
  mkEntry "vmovdqu/ax" [cA; cX] (ar i_vmovdqu_ax) r_vmovdqu_ax VlRegs
].
Lemma tab24_ok : Forall (implements true) tab24.
Proof.
  unfold tab24. do 7 (apply Forall_cons; [eapply impl_mr_a; [reflexivity|chk|rcm|reflexivity|reflexivity]|]). apply Forall_nil.
Qed.

Definition tab25 : list entry := [
  mkEntry "vmovsh/xxx" [cX; cX; cX] (rrr i_vmovsh_xxx) r_vmovsh_xxx VlRegs
].
Lemma tab25_ok : Forall (implements true) tab25.
Proof.
  unfold tab25. do 1 (apply Forall_cons; [eapply impl_rvm_r; [reflexivity|reflexivity|discriminate|chk|rcm|reflexivity|reflexivity]|]). apply Forall_nil.
Qed.

Definition tab26 : list entry := [
  mkEntry "vbroadcastf128/ya" [cY; cA] (ra i_vbroadcastf128) r_vbroadcastf128_ya VlRegs;
  mkEntry "vbroadcasti128/ya" [cY; cA] (ra i_vbroadcasti128) r_vbroadcasti128_ya VlRegs;
  mkEntry "vbroadcastf32x4/ya" [cY; cA] (ra i_vbroadcastf32x4) r_vbroadcastf32x4_ya VlRegs;
  mkEntry "vbroadcastf64x2/ya" [cY; cA] (ra i_vbroadcastf64x2) r_vbroadcastf64x2_ya VlRegs;
  mkEntry "vbroadcastf32x8/za" [cZ; cA] (ra i_vbroadcastf32x8) r_vbroadcastf32x8_za VlRegs;
  mkEntry "vbroadcastf64x4/za" [cZ; cA] (ra i_vbroadcastf64x4) r_vbroadcastf64x4_za VlRegs
].
Lemma tab26_ok : Forall (implements true) tab26.
Proof.
  unfold tab26. do 6 (apply Forall_cons; [eapply impl_rm_a; [reflexivity|chk|rcm|reflexivity|reflexivity]|]). apply Forall_nil.
Qed.

Definition tab27 : list entry := [
  mkEntry "vbroadcastsd/yo" [cY; cO] (ro i_vbroadcastsd) r_vbroadcastsd_yo VlRegs
].
Lemma tab27_ok : Forall (implements true) tab27.
Proof.
  unfold tab27. do 1 (apply Forall_cons; [apply (below_ro _ _ _ _ _ _ (fun a o => opAVX_X_XM_IMM a o ((((((T_0F38 ||| T_66) ||| T_W0) ||| T_YMM) ||| T_EVEX) ||| T_EW1) ||| T_N8) 0x19 NONE)); [gred i_vbroadcastsd|eapply impl_rm; [reflexivity|discriminate|chk|rcm|reflexivity|reflexivity]]|]). apply Forall_nil.
Qed.

Definition tab28 : list entry := [
  mkEntry "vbroadcastss/xo" [cX; cO] (ro i_vbroadcastss) r_vbroadcastss_xo VlRegs;
  mkEntry "vpbroadcastb/xo" [cX; cO] (ro i_vpbroadcastb_xo) r_vpbroadcastb_xo VlRegs;
  mkEntry "vpbroadcastw/xo" [cX; cO] (ro i_vpbroadcastw_xo) r_vpbroadcastw_xo VlRegs;
  mkEntry "vpbroadcastd/xo" [cX; cO] (ro i_vpbroadcastd_xo) r_vpbroadcastd_xo VlRegs;
  mkEntry "vpbroadcastq/xo" [cX; cO] (ro i_vpbroadcastq_xo) r_vpbroadcastq_xo VlRegs
].
Lemma tab28_ok : Forall (implements true) tab28.
Proof.
  apply Forall_cons; [apply (below_ro _ _ _ _ _ _ (fun a o => opAVX_X_XM_IMM a o (((((T_N4 ||| T_66) ||| T_0F38) ||| T_W0) ||| T_YMM) ||| T_EVEX) 0x18 NONE)); [gred i_vbroadcastss|eapply impl_rm; [reflexivity|discriminate|chk|rcm|reflexivity|reflexivity]]|].
  apply Forall_cons; [apply (below_ro _ _ _ _ _ _ (fun a o => opAVX_X_XM_IMM a o (((((T_N1 ||| T_66) ||| T_0F38) ||| T_W0) ||| T_YMM) ||| T_EVEX) 0x78 NONE)); [gred i_vpbroadcastb_xo|eapply impl_rm; [reflexivity|discriminate|chk|rcm|reflexivity|reflexivity]]|].
  apply Forall_cons; [apply (below_ro _ _ _ _ _ _ (fun a o => opAVX_X_XM_IMM a o (((((T_N2 ||| T_66) ||| T_0F38) ||| T_W0) ||| T_YMM) ||| T_EVEX) 0x79 NONE)); [gred i_vpbroadcastw_xo|eapply impl_rm; [reflexivity|discriminate|chk|rcm|reflexivity|reflexivity]]|].
  apply Forall_cons; [apply (below_ro _ _ _ _ _ _ (fun a o => opAVX_X_XM_IMM a o (((((T_N4 ||| T_66) ||| T_0F38) ||| T_W0) ||| T_YMM) ||| T_EVEX) 0x58 NONE)); [gred i_vpbroadcastd_xo|eapply impl_rm; [reflexivity|discriminate|chk|rcm|reflexivity|reflexivity]]|].
  apply Forall_cons; [apply (below_ro _ _ _ _ _ _ (fun a o => opAVX_X_XM_IMM a o ((((((T_N8 ||| T_66) ||| T_0F38) ||| T_W0) ||| T_EW1) ||| T_YMM) ||| T_EVEX) 0x59 NONE)); [gred i_vpbroadcastq_xo|eapply impl_rm; [reflexivity|discriminate|chk|rcm|reflexivity|reflexivity]]|].
  apply Forall_nil.
Qed.

Definition tab29 : list entry := [
  mkEntry "vmovddup/xo" [cX; cO] (ro i_vmovddup) r_vmovddup_xo VlRegs;
  mkEntry "vmovdqa32/xo" [cX; cO] (ro i_vmovdqa32_xo) r_vmovdqa32_xo VlRegs;
  mkEntry "vmovdqa64/xo" [cX; cO] (ro i_vmovdqa64_xo) r_vmovdqa64_xo VlRegs;
  mkEntry "vmovdqu8/xo" [cX; cO] (ro i_vmovdqu8_xo) r_vmovdqu8_xo VlRegs;
  mkEntry "vmovdqu16/xo" [cX; cO] (ro i_vmovdqu16_xo) r_vmovdqu16_xo VlRegs;
  mkEntry "vmovdqu32/xo" [cX; cO] (ro i_vmovdqu32_xo) r_vmovdqu32_xo VlRegs;
  mkEntry "vmovdqu64/xo" [cX; cO] (ro i_vmovdqu64_xo) r_vmovdqu64_xo VlRegs;
  mkEntry "vpexpandb/xo" [cX; cO] (ro i_vpexpandb) r_vpexpandb_xo VlRegs;
  mkEntry "vpexpandw/xo" [cX; cO] (ro i_vpexpandw) r_vpexpandw_xo VlRegs;
  mkEntry "vcvttps2ibs/xo" [cX; cO] (ro i_vcvttps2ibs) r_vcvttps2ibs_xo VlRegs;
  mkEntry "vcvttps2iubs/xo" [cX; cO] (ro i_vcvttps2iubs) r_vcvttps2iubs_xo VlRegs;
  mkEntry "vcvttph2ibs/xo" [cX; cO] (ro i_vcvttph2ibs) r_vcvttph2ibs_xo VlRegs;
  mkEntry "vcvttph2iubs/xo" [cX; cO] (ro i_vcvttph2iubs) r_vcvttph2iubs_xo VlRegs;
  mkEntry "vpopcntb/xo" [cX; cO] (ro i_vpopcntb) r_vpopcntb_xo VlRegs;
  mkEntry "vpopcntw/xo" [cX; cO] (ro i_vpopcntw) r_vpopcntw_xo VlRegs;
  mkEntry "vpopcntd/xo" [cX; cO] (ro i_vpopcntd) r_vpopcntd_xo VlRegs;
  mkEntry "vpopcntq/xo" [cX; cO] (ro i_vpopcntq) r_vpopcntq_xo VlRegs
].
Lemma tab29_ok : Forall (implements false) tab29.
Proof.
  unfold tab29. do 17 (apply Forall_cons; [eapply impl_rm; [reflexivity|discriminate|chk|rcm|reflexivity|reflexivity]|]). apply Forall_nil.
Qed.

Definition tab30 : list entry := [
  mkEntry "vmovdqa32/ax" [cA; cX] (ar i_vmovdqa32_ax) r_vmovdqa32_ax VlRegs;
  mkEntry "vmovdqa64/ax" [cA; cX] (ar i_vmovdqa64_ax) r_vmovdqa64_ax VlRegs;
  mkEntry "vmovdqu8/ax" [cA; cX] (ar i_vmovdqu8_ax) r_vmovdqu8_ax VlRegs;
  mkEntry "vmovdqu16/ax" [cA; cX] (ar i_vmovdqu16_ax) r_vmovdqu16_ax VlRegs;
  mkEntry "vmovdqu32/ax" [cA; cX] (ar i_vmovdqu32_ax) r_vmovdqu32_ax VlRegs;
  mkEntry "vmovdqu64/ax" [cA; cX] (ar i_vmovdqu64_ax) r_vmovdqu64_ax VlRegs
].
Lemma tab30_ok : Forall (implements false) tab30.
Proof.
  unfold tab30. do 6 (apply Forall_cons; [eapply impl_mr_a; [reflexivity|chk|rcm|reflexivity|reflexivity]|]). apply Forall_nil.
Qed.

Definition tab31 : list entry := [
  mkEntry "vcompressps/ox" [cO; cX] (or_ i_vcompressps) r_vcompressps_ox VlRegs;
  mkEntry "vcompresspd/ox" [cO; cX] (or_ i_vcompresspd) r_vcompresspd_ox VlRegs;
  mkEntry "vpcompressd/ox" [cO; cX] (or_ i_vpcompressd) r_vpcompressd_ox VlRegs;
  mkEntry "vpcompressq/ox" [cO; cX] (or_ i_vpcompressq) r_vpcompressq_ox VlRegs;
  mkEntry "vpcompressb/ox" [cO; cX] (or_ i_vpcompressb) r_vpcompressb_ox VlRegs;
  mkEntry "vpcompressw/ox" [cO; cX] (or_ i_vpcompressw) r_vpcompressw_ox VlRegs
].
Lemma tab31_ok : Forall (implements true) tab31.
Proof.
  unfold tab31. do 6 (apply Forall_cons; [eapply impl_mr; [reflexivity|discriminate|chk|rcm|reflexivity|reflexivity]|]). apply Forall_nil.
Qed.

Definition tab32 : list entry := [
  mkEntry "vcvtps2qq/xo" [cX; cO] (ro i_vcvtps2qq) r_vcvtps2qq_xo VlRegs;
  mkEntry "vcvtps2uqq/xo" [cX; cO] (ro i_vcvtps2uqq) r_vcvtps2uqq_xo VlRegs;
  mkEntry "vcvttps2qq/xo" [cX; cO] (ro i_vcvttps2qq) r_vcvttps2qq_xo VlRegs;
  mkEntry "vcvttps2uqq/xo" [cX; cO] (ro i_vcvttps2uqq) r_vcvttps2uqq_xo VlRegs;
  mkEntry "vcvtudq2pd/xo" [cX; cO] (ro i_vcvtudq2pd) r_vcvtudq2pd_xo VlRegs;
  mkEntry "vcvtph2dq/xo" [cX; cO] (ro i_vcvtph2dq) r_vcvtph2dq_xo VlRegs;
  mkEntry "vcvttph2dq/xo" [cX; cO] (ro i_vcvttph2dq) r_vcvttph2dq_xo VlRegs;
  mkEntry "vcvtph2udq/xo" [cX; cO] (ro i_vcvtph2udq) r_vcvtph2udq_xo VlRegs;
  mkEntry "vcvttph2udq/xo" [cX; cO] (ro i_vcvttph2udq) r_vcvttph2udq_xo VlRegs;
  mkEntry "vcvtph2psx/xo" [cX; cO] (ro i_vcvtph2psx) r_vcvtph2psx_xo VlRegs;
  mkEntry "vcvttps2qqs/xo" [cX; cO] (ro i_vcvttps2qqs) r_vcvttps2qqs_xo VlRegs;
  mkEntry "vcvttps2uqqs/xo" [cX; cO] (ro i_vcvttps2uqqs) r_vcvttps2uqqs_xo VlRegs;
  mkEntry "vcvtdq2pd/xo" [cX; cO] (ro i_vcvtdq2pd) r_vcvtdq2pd_xo VlRegs;
  mkEntry "vcvtps2pd/xo" [cX; cO] (ro i_vcvtps2pd) r_vcvtps2pd_xo VlRegs;
  mkEntry "vcvtph2ps/xo" [cX; cO] (ro i_vcvtph2ps) r_vcvtph2ps_xo VlRegs
].
Lemma tab32_ok : Forall (implements true) tab32.
Proof.
  apply Forall_cons; [apply (impl_d_ro ((((((((T_N8 ||| T_N_VL) ||| T_66) ||| T_0F) ||| T_EW0) ||| T_YMM) ||| T_ER_Y) ||| T_MUST_EVEX) ||| T_B32) 0x7B [128; 256; 512]); [reflexivity|discriminate|chk|rcm|reflexivity|reflexivity|dred i_vcvtps2qq]|].
  apply Forall_cons; [apply (impl_d_ro ((((((((T_N8 ||| T_N_VL) ||| T_66) ||| T_0F) ||| T_EW0) ||| T_YMM) ||| T_ER_Y) ||| T_MUST_EVEX) ||| T_B32) 0x79 [128; 256; 512]); [reflexivity|discriminate|chk|rcm|reflexivity|reflexivity|dred i_vcvtps2uqq]|].
  apply Forall_cons; [apply (impl_d_ro ((((((((T_N8 ||| T_N_VL) ||| T_66) ||| T_0F) ||| T_EW0) ||| T_YMM) ||| T_SAE_Y) ||| T_MUST_EVEX) ||| T_B32) 0x7A [128; 256; 512]); [reflexivity|discriminate|chk|rcm|reflexivity|reflexivity|dred i_vcvttps2qq]|].
  apply Forall_cons; [apply (impl_d_ro ((((((((T_N8 ||| T_N_VL) ||| T_66) ||| T_0F) ||| T_EW0) ||| T_YMM) ||| T_SAE_Y) ||| T_MUST_EVEX) ||| T_B32) 0x78 [128; 256; 512]); [reflexivity|discriminate|chk|rcm|reflexivity|reflexivity|dred i_vcvttps2uqq]|].
  apply Forall_cons; [apply (impl_d_ro (((((((T_N8 ||| T_N_VL) ||| T_F3) ||| T_0F) ||| T_EW0) ||| T_YMM) ||| T_MUST_EVEX) ||| T_B32) 0x7A [128; 256; 512]); [reflexivity|discriminate|chk|rcm|reflexivity|reflexivity|dred i_vcvtudq2pd]|].
  apply Forall_cons; [apply (impl_d_ro ((((((((T_N8 ||| T_N_VL) ||| T_66) ||| T_MAP5) ||| T_EW0) ||| T_YMM) ||| T_ER_Y) ||| T_MUST_EVEX) ||| T_B16) 0x5B [128; 256; 512]); [reflexivity|discriminate|chk|rcm|reflexivity|reflexivity|dred i_vcvtph2dq]|].
  apply Forall_cons; [apply (impl_d_ro ((((((((T_N8 ||| T_N_VL) ||| T_F3) ||| T_MAP5) ||| T_EW0) ||| T_YMM) ||| T_SAE_Y) ||| T_MUST_EVEX) ||| T_B16) 0x5B [128; 256; 512]); [reflexivity|discriminate|chk|rcm|reflexivity|reflexivity|dred i_vcvttph2dq]|].
  apply Forall_cons; [apply (impl_d_ro (((((((T_N8 ||| T_N_VL) ||| T_MAP5) ||| T_EW0) ||| T_YMM) ||| T_ER_Y) ||| T_MUST_EVEX) ||| T_B16) 0x79 [128; 256; 512]); [reflexivity|discriminate|chk|rcm|reflexivity|reflexivity|dred i_vcvtph2udq]|].
  apply Forall_cons; [apply (impl_d_ro (((((((T_N8 ||| T_N_VL) ||| T_MAP5) ||| T_EW0) ||| T_YMM) ||| T_SAE_Y) ||| T_MUST_EVEX) ||| T_B16) 0x78 [128; 256; 512]); [reflexivity|discriminate|chk|rcm|reflexivity|reflexivity|dred i_vcvttph2udq]|].
  apply Forall_cons; [apply (impl_d_ro ((((((((T_N8 ||| T_N_VL) ||| T_66) ||| T_MAP6) ||| T_EW0) ||| T_YMM) ||| T_SAE_Y) ||| T_MUST_EVEX) ||| T_B16) 0x13 [128; 256; 512]); [reflexivity|discriminate|chk|rcm|reflexivity|reflexivity|dred i_vcvtph2psx]|].
  apply Forall_cons; [apply (impl_d_ro (((((((((T_N8 ||| T_N_VL) ||| T_66) ||| T_MAP5) ||| T_EW0) ||| T_YMM) ||| T_SAE_X) ||| T_SAE_Y) ||| T_MUST_EVEX) ||| T_B32) 0x6D [128; 256; 512]); [reflexivity|discriminate|chk|rcm|reflexivity|reflexivity|dred i_vcvttps2qqs]|].
  apply Forall_cons; [apply (impl_d_ro (((((((((T_N8 ||| T_N_VL) ||| T_66) ||| T_MAP5) ||| T_EW0) ||| T_YMM) ||| T_SAE_X) ||| T_SAE_Y) ||| T_MUST_EVEX) ||| T_B32) 0x6C [128; 256; 512]); [reflexivity|discriminate|chk|rcm|reflexivity|reflexivity|dred i_vcvttps2uqqs]|].
  apply Forall_cons; [apply (impl_d_ro (((((((T_0F ||| T_F3) ||| T_YMM) ||| T_EVEX) ||| T_EW0) ||| T_B32) ||| T_N8) ||| T_N_VL) 0xE6 [128; 256; 512]); [reflexivity|discriminate|chk|rcm|reflexivity|reflexivity|dred i_vcvtdq2pd]|].
  apply Forall_cons; [apply (impl_d_ro (((((((T_0F ||| T_YMM) ||| T_EVEX) ||| T_EW0) ||| T_B32) ||| T_N8) ||| T_N_VL) ||| T_SAE_Y) 0x5A [128; 256; 512]); [reflexivity|discriminate|chk|rcm|reflexivity|reflexivity|dred i_vcvtps2pd]|].
  apply Forall_cons; [apply (impl_d_ro (((((((T_0F38 ||| T_66) ||| T_W0) ||| T_EVEX) ||| T_EW0) ||| T_N8) ||| T_N_VL) ||| T_SAE_Y) 0x13 [128; 256; 512]); [reflexivity|discriminate|chk|rcm|reflexivity|reflexivity|dred i_vcvtph2ps]|].
  apply Forall_nil.
Qed.

Definition tab33 : list entry := [
  mkEntry "vcvtph2qq/xo" [cX; cO] (ro i_vcvtph2qq) r_vcvtph2qq_xo VlRegs;
  mkEntry "vcvttph2qq/xo" [cX; cO] (ro i_vcvttph2qq) r_vcvttph2qq_xo VlRegs;
  mkEntry "vcvtph2uqq/xo" [cX; cO] (ro i_vcvtph2uqq) r_vcvtph2uqq_xo VlRegs;
  mkEntry "vcvttph2uqq/xo" [cX; cO] (ro i_vcvttph2uqq) r_vcvttph2uqq_xo VlRegs;
  mkEntry "vcvtph2pd/xo" [cX; cO] (ro i_vcvtph2pd) r_vcvtph2pd_xo VlRegs
].
Lemma tab33_ok : Forall (implements true) tab33.
Proof.
  apply Forall_cons; [apply (impl_d_ro ((((((((T_N4 ||| T_N_VL) ||| T_66) ||| T_MAP5) ||| T_EW0) ||| T_YMM) ||| T_ER_X) ||| T_MUST_EVEX) ||| T_B16) 0x7B [128; 256; 512]); [reflexivity|discriminate|chk|rcm|reflexivity|reflexivity|dred i_vcvtph2qq]|].
  apply Forall_cons; [apply (impl_d_ro ((((((((T_N4 ||| T_N_VL) ||| T_66) ||| T_MAP5) ||| T_EW0) ||| T_YMM) ||| T_SAE_X) ||| T_MUST_EVEX) ||| T_B16) 0x7A [128; 256; 512]); [reflexivity|discriminate|chk|rcm|reflexivity|reflexivity|dred i_vcvttph2qq]|].
  apply Forall_cons; [apply (impl_d_ro ((((((((T_N4 ||| T_N_VL) ||| T_66) ||| T_MAP5) ||| T_EW0) ||| T_YMM) ||| T_ER_X) ||| T_MUST_EVEX) ||| T_B16) 0x79 [128; 256; 512]); [reflexivity|discriminate|chk|rcm|reflexivity|reflexivity|dred i_vcvtph2uqq]|].
  apply Forall_cons; [apply (impl_d_ro ((((((((T_N4 ||| T_N_VL) ||| T_66) ||| T_MAP5) ||| T_EW0) ||| T_YMM) ||| T_SAE_X) ||| T_MUST_EVEX) ||| T_B16) 0x78 [128; 256; 512]); [reflexivity|discriminate|chk|rcm|reflexivity|reflexivity|dred i_vcvttph2uqq]|].
  apply Forall_cons; [apply (impl_d_ro (((((((T_N4 ||| T_N_VL) ||| T_MAP5) ||| T_EW0) ||| T_YMM) ||| T_SAE_X) ||| T_MUST_EVEX) ||| T_B16) 0x5A [128; 256; 512]); [reflexivity|discriminate|chk|rcm|reflexivity|reflexivity|dred i_vcvtph2pd]|].
  apply Forall_nil.
Qed.

Definition tab34 : list entry := [
  mkEntry "vcvtdq2ph/xo" [cX; cO] (ro i_vcvtdq2ph) r_vcvtdq2ph_xo VlHalf;
  mkEntry "vcvtps2phx/xo" [cX; cO] (ro i_vcvtps2phx) r_vcvtps2phx_xo VlHalf;
  mkEntry "vcvtudq2ph/xo" [cX; cO] (ro i_vcvtudq2ph) r_vcvtudq2ph_xo VlHalf
].
Lemma tab34_ok : Forall (implements true) tab34.
Proof.
  unfold tab34. do 3 (apply Forall_cons; [apply impl_cvt4; [chk|rcm|reflexivity|reflexivity]|]). apply Forall_nil.
Qed.

Definition tab35 : list entry := [
  mkEntry "vcvtpd2ph/xo" [cX; cO] (ro i_vcvtpd2ph) r_vcvtpd2ph_xo VlMem;
  mkEntry "vcvtqq2ph/xo" [cX; cO] (ro i_vcvtqq2ph) r_vcvtqq2ph_xo VlMem;
  mkEntry "vcvtuqq2ph/xo" [cX; cO] (ro i_vcvtuqq2ph) r_vcvtuqq2ph_xo VlMem
].
Lemma tab35_ok : Forall (implements true) tab35.
Proof.
  unfold tab35. do 3 (apply Forall_cons; [apply impl_cvt5; [chk|rcm|reflexivity|reflexivity]|]). apply Forall_nil.
Qed.

Definition tab36 : list entry := [
  mkEntry "vcvtps2ph/oxi" [cO; cX] (ori i_vcvtps2ph) r_vcvtps2ph_oxi VlRegs
].
Lemma tab36_ok : Forall (implements true) tab36.
Proof.
  unfold tab36. do 1 (apply Forall_cons; [apply (impl_d_ori ((((((((T_0F3A ||| T_66) ||| T_W0) ||| T_EVEX) ||| T_EW0) ||| T_N8) ||| T_N_VL) ||| T_SAE_Y) ||| T_M_K) 0x1D [128; 256; 512]); [reflexivity|discriminate|chk|rcm|reflexivity|reflexivity|dred i_vcvtps2ph]|]). apply Forall_nil.
Qed.

Definition tab37 : list entry := [
  mkEntry "vcmpps/kxoi" [cK; cX; cO] (rroi i_vcmpps_kxoi) r_vcmpps_kxoi VlRegs;
  mkEntry "vcmppd/kxoi" [cK; cX; cO] (rroi i_vcmppd_kxoi) r_vcmppd_kxoi VlRegs;
  mkEntry "vcmpss/kxoi" [cK; cX; cO] (rroi i_vcmpss_kxoi) r_vcmpss_kxoi VlRegs;
  mkEntry "vcmpsd/kxoi" [cK; cX; cO] (rroi i_vcmpsd_kxoi) r_vcmpsd_kxoi VlRegs;
  mkEntry "vcmpph/kxoi" [cK; cX; cO] (rroi i_vcmpph) r_vcmpph_kxoi VlRegs;
  mkEntry "vcmpsh/kxoi" [cK; cX; cO] (rroi i_vcmpsh) r_vcmpsh_kxoi VlRegs;
  mkEntry "vpcmpb/kxoi" [cK; cX; cO] (rroi i_vpcmpb) r_vpcmpb_kxoi VlRegs;
  mkEntry "vpcmpw/kxoi" [cK; cX; cO] (rroi i_vpcmpw) r_vpcmpw_kxoi VlRegs;
  mkEntry "vpcmpub/kxoi" [cK; cX; cO] (rroi i_vpcmpub) r_vpcmpub_kxoi VlRegs;
  mkEntry "vpcmpuw/kxoi" [cK; cX; cO] (rroi i_vpcmpuw) r_vpcmpuw_kxoi VlRegs;
  mkEntry "vpcmpd/kxoi" [cK; cX; cO] (rroi i_vpcmpd) r_vpcmpd_kxoi VlRegs;
  mkEntry "vpcmpq/kxoi" [cK; cX; cO] (rroi i_vpcmpq) r_vpcmpq_kxoi VlRegs;
  mkEntry "vpcmpud/kxoi" [cK; cX; cO] (rroi i_vpcmpud) r_vpcmpud_kxoi VlRegs;
  mkEntry "vpcmpuq/kxoi" [cK; cX; cO] (rroi i_vpcmpuq) r_vpcmpuq_kxoi VlRegs
].
Lemma tab37_ok : Forall (implements true) tab37.
Proof.
  apply Forall_cons; [apply (impl_kxoi (((((T_0F ||| T_EW0) ||| T_YMM) ||| T_SAE_Z) ||| T_MUST_EVEX) ||| T_B32) 0xC2 [128; 256; 512]); [chk|rcm|reflexivity|reflexivity|discriminate|incls|reflexivity|dredk i_vcmpps_kxoi]|].
  apply Forall_cons; [apply (impl_kxoi ((((((T_66 ||| T_0F) ||| T_EW1) ||| T_YMM) ||| T_SAE_Z) ||| T_MUST_EVEX) ||| T_B64) 0xC2 [128; 256; 512]); [chk|rcm|reflexivity|reflexivity|discriminate|incls|reflexivity|dredk i_vcmppd_kxoi]|].
  apply Forall_cons; [apply (impl_kxoi (((((T_N4 ||| T_F3) ||| T_0F) ||| T_EW0) ||| T_SAE_Z) ||| T_MUST_EVEX) 0xC2 [128; 256; 512]); [chk|rcm|reflexivity|reflexivity|discriminate|incls|reflexivity|dredk i_vcmpss_kxoi]|].
  apply Forall_cons; [apply (impl_kxoi (((((T_N8 ||| T_F2) ||| T_0F) ||| T_EW1) ||| T_SAE_Z) ||| T_MUST_EVEX) 0xC2 [128; 256; 512]); [chk|rcm|reflexivity|reflexivity|discriminate|incls|reflexivity|dredk i_vcmpsd_kxoi]|].
  apply Forall_cons; [apply (impl_kxoi (((((T_0F3A ||| T_EW0) ||| T_YMM) ||| T_SAE_Z) ||| T_MUST_EVEX) ||| T_B16) 0xC2 [128; 256; 512]); [chk|rcm|reflexivity|reflexivity|discriminate|incls|reflexivity|dredk i_vcmpph]|].
  apply Forall_cons; [apply (impl_kxoi (((((T_N2 ||| T_F3) ||| T_0F3A) ||| T_EW0) ||| T_SAE_X) ||| T_MUST_EVEX) 0xC2 [128; 256; 512]); [chk|rcm|reflexivity|reflexivity|discriminate|incls|reflexivity|dredk i_vcmpsh]|].
  apply Forall_cons; [apply (impl_kxoi ((((T_66 ||| T_0F3A) ||| T_EW0) ||| T_YMM) ||| T_MUST_EVEX) 0x3F [128; 256; 512]); [chk|rcm|reflexivity|reflexivity|discriminate|incls|reflexivity|dredk i_vpcmpb]|].
  apply Forall_cons; [apply (impl_kxoi ((((T_66 ||| T_0F3A) ||| T_EW1) ||| T_YMM) ||| T_MUST_EVEX) 0x3F [128; 256; 512]); [chk|rcm|reflexivity|reflexivity|discriminate|incls|reflexivity|dredk i_vpcmpw]|].
  apply Forall_cons; [apply (impl_kxoi ((((T_66 ||| T_0F3A) ||| T_EW0) ||| T_YMM) ||| T_MUST_EVEX) 0x3E [128; 256; 512]); [chk|rcm|reflexivity|reflexivity|discriminate|incls|reflexivity|dredk i_vpcmpub]|].
  apply Forall_cons; [apply (impl_kxoi ((((T_66 ||| T_0F3A) ||| T_EW1) ||| T_YMM) ||| T_MUST_EVEX) 0x3E [128; 256; 512]); [chk|rcm|reflexivity|reflexivity|discriminate|incls|reflexivity|dredk i_vpcmpuw]|].
  apply Forall_cons; [apply (impl_kxoi (((((T_66 ||| T_0F3A) ||| T_EW0) ||| T_YMM) ||| T_MUST_EVEX) ||| T_B32) 0x1F [128; 256; 512]); [chk|rcm|reflexivity|reflexivity|discriminate|incls|reflexivity|dredk i_vpcmpd]|].
  apply Forall_cons; [apply (impl_kxoi (((((T_66 ||| T_0F3A) ||| T_EW1) ||| T_YMM) ||| T_MUST_EVEX) ||| T_B64) 0x1F [128; 256; 512]); [chk|rcm|reflexivity|reflexivity|discriminate|incls|reflexivity|dredk i_vpcmpq]|].
  apply Forall_cons; [apply (impl_kxoi (((((T_66 ||| T_0F3A) ||| T_EW0) ||| T_YMM) ||| T_MUST_EVEX) ||| T_B32) 0x1E [128; 256; 512]); [chk|rcm|reflexivity|reflexivity|discriminate|incls|reflexivity|dredk i_vpcmpud]|].
  apply Forall_cons; [apply (impl_kxoi (((((T_66 ||| T_0F3A) ||| T_EW1) ||| T_YMM) ||| T_MUST_EVEX) ||| T_B64) 0x1E [128; 256; 512]); [chk|rcm|reflexivity|reflexivity|discriminate|incls|reflexivity|dredk i_vpcmpuq]|].
  apply Forall_nil.
Qed.

Definition tab38 : list entry := [
  mkEntry "vcmppbf16/kxoi" [cK; cX; cO] (rroi i_vcmppbf16) r_vcmppbf16_kxoi VlRegs
].
Lemma tab38_ok : Forall (implements true) tab38.
Proof.
  unfold tab38. do 1 (apply Forall_cons; [apply (impl_kxoi (((((T_MUST_EVEX ||| T_F2) ||| T_0F3A) ||| T_EW0) ||| T_YMM) ||| T_B16) 0xC2 [128; 256; 512]); [chk|rcm|reflexivity|reflexivity|discriminate|incls|reflexivity|dredk i_vcmppbf16]|]). apply Forall_nil.
Qed.

Definition tab39 : list entry := [
  mkEntry "vpcmpeqb/kxo" [cK; cX; cO] (rro i_vpcmpeqb_kxo) r_vpcmpeqb_kxo VlRegs;
  mkEntry "vpcmpeqw/kxo" [cK; cX; cO] (rro i_vpcmpeqw_kxo) r_vpcmpeqw_kxo VlRegs;
  mkEntry "vpcmpeqd/kxo" [cK; cX; cO] (rro i_vpcmpeqd_kxo) r_vpcmpeqd_kxo VlRegs;
  mkEntry "vpcmpeqq/kxo" [cK; cX; cO] (rro i_vpcmpeqq_kxo) r_vpcmpeqq_kxo VlRegs;
  mkEntry "vpcmpgtb/kxo" [cK; cX; cO] (rro i_vpcmpgtb_kxo) r_vpcmpgtb_kxo VlRegs;
  mkEntry "vpcmpgtw/kxo" [cK; cX; cO] (rro i_vpcmpgtw_kxo) r_vpcmpgtw_kxo VlRegs;
  mkEntry "vpcmpgtd/kxo" [cK; cX; cO] (rro i_vpcmpgtd_kxo) r_vpcmpgtd_kxo VlRegs;
  mkEntry "vpcmpgtq/kxo" [cK; cX; cO] (rro i_vpcmpgtq_kxo) r_vpcmpgtq_kxo VlRegs;
  mkEntry "vptestmb/kxo" [cK; cX; cO] (rro i_vptestmb) r_vptestmb_kxo VlRegs;
  mkEntry "vptestmw/kxo" [cK; cX; cO] (rro i_vptestmw) r_vptestmw_kxo VlRegs;
  mkEntry "vptestmd/kxo" [cK; cX; cO] (rro i_vptestmd) r_vptestmd_kxo VlRegs;
  mkEntry "vptestmq/kxo" [cK; cX; cO] (rro i_vptestmq) r_vptestmq_kxo VlRegs;
  mkEntry "vptestnmb/kxo" [cK; cX; cO] (rro i_vptestnmb) r_vptestnmb_kxo VlRegs;
  mkEntry "vptestnmw/kxo" [cK; cX; cO] (rro i_vptestnmw) r_vptestnmw_kxo VlRegs;
  mkEntry "vptestnmd/kxo" [cK; cX; cO] (rro i_vptestnmd) r_vptestnmd_kxo VlRegs;
  mkEntry "vptestnmq/kxo" [cK; cX; cO] (rro i_vptestnmq) r_vptestnmq_kxo VlRegs
].
Lemma tab39_ok : Forall (implements true) tab39.
Proof.
  apply Forall_cons; [apply (impl_kxo (((T_66 ||| T_0F) ||| T_YMM) ||| T_MUST_EVEX) 0x74 [128; 256; 512]); [chk|rcm|reflexivity|reflexivity|discriminate|incls|reflexivity|dredk i_vpcmpeqb_kxo]|].
  apply Forall_cons; [apply (impl_kxo (((T_66 ||| T_0F) ||| T_YMM) ||| T_MUST_EVEX) 0x75 [128; 256; 512]); [chk|rcm|reflexivity|reflexivity|discriminate|incls|reflexivity|dredk i_vpcmpeqw_kxo]|].
  apply Forall_cons; [apply (impl_kxo ((((T_66 ||| T_0F) ||| T_YMM) ||| T_MUST_EVEX) ||| T_B32) 0x76 [128; 256; 512]); [chk|rcm|reflexivity|reflexivity|discriminate|incls|reflexivity|dredk i_vpcmpeqd_kxo]|].
  apply Forall_cons; [apply (impl_kxo (((((T_66 ||| T_0F38) ||| T_EW1) ||| T_YMM) ||| T_MUST_EVEX) ||| T_B64) 0x29 [128; 256; 512]); [chk|rcm|reflexivity|reflexivity|discriminate|incls|reflexivity|dredk i_vpcmpeqq_kxo]|].
  apply Forall_cons; [apply (impl_kxo (((T_66 ||| T_0F) ||| T_YMM) ||| T_MUST_EVEX) 0x64 [128; 256; 512]); [chk|rcm|reflexivity|reflexivity|discriminate|incls|reflexivity|dredk i_vpcmpgtb_kxo]|].
  apply Forall_cons; [apply (impl_kxo (((T_66 ||| T_0F) ||| T_YMM) ||| T_MUST_EVEX) 0x65 [128; 256; 512]); [chk|rcm|reflexivity|reflexivity|discriminate|incls|reflexivity|dredk i_vpcmpgtw_kxo]|].
  apply Forall_cons; [apply (impl_kxo (((((T_66 ||| T_0F) ||| T_EW0) ||| T_YMM) ||| T_MUST_EVEX) ||| T_B32) 0x66 [128; 256; 512]); [chk|rcm|reflexivity|reflexivity|discriminate|incls|reflexivity|dredk i_vpcmpgtd_kxo]|].
  apply Forall_cons; [apply (impl_kxo (((((T_66 ||| T_0F38) ||| T_EW1) ||| T_YMM) ||| T_MUST_EVEX) ||| T_B64) 0x37 [128; 256; 512]); [chk|rcm|reflexivity|reflexivity|discriminate|incls|reflexivity|dredk i_vpcmpgtq_kxo]|].
  apply Forall_cons; [apply (impl_kxo ((((T_66 ||| T_0F38) ||| T_EW0) ||| T_YMM) ||| T_MUST_EVEX) 0x26 [128; 256; 512]); [chk|rcm|reflexivity|reflexivity|discriminate|incls|reflexivity|dredk i_vptestmb]|].
  apply Forall_cons; [apply (impl_kxo ((((T_66 ||| T_0F38) ||| T_EW1) ||| T_YMM) ||| T_MUST_EVEX) 0x26 [128; 256; 512]); [chk|rcm|reflexivity|reflexivity|discriminate|incls|reflexivity|dredk i_vptestmw]|].
  apply Forall_cons; [apply (impl_kxo (((((T_66 ||| T_0F38) ||| T_EW0) ||| T_YMM) ||| T_MUST_EVEX) ||| T_B32) 0x27 [128; 256; 512]); [chk|rcm|reflexivity|reflexivity|discriminate|incls|reflexivity|dredk i_vptestmd]|].
  apply Forall_cons; [apply (impl_kxo (((((T_66 ||| T_0F38) ||| T_EW1) ||| T_YMM) ||| T_MUST_EVEX) ||| T_B64) 0x27 [128; 256; 512]); [chk|rcm|reflexivity|reflexivity|discriminate|incls|reflexivity|dredk i_vptestmq]|].
  apply Forall_cons; [apply (impl_kxo ((((T_F3 ||| T_0F38) ||| T_EW0) ||| T_YMM) ||| T_MUST_EVEX) 0x26 [128; 256; 512]); [chk|rcm|reflexivity|reflexivity|discriminate|incls|reflexivity|dredk i_vptestnmb]|].
  apply Forall_cons; [apply (impl_kxo ((((T_F3 ||| T_0F38) ||| T_EW1) ||| T_YMM) ||| T_MUST_EVEX) 0x26 [128; 256; 512]); [chk|rcm|reflexivity|reflexivity|discriminate|incls|reflexivity|dredk i_vptestnmw]|].
  apply Forall_cons; [apply (impl_kxo (((((T_F3 ||| T_0F38) ||| T_EW0) ||| T_YMM) ||| T_MUST_EVEX) ||| T_B32) 0x27 [128; 256; 512]); [chk|rcm|reflexivity|reflexivity|discriminate|incls|reflexivity|dredk i_vptestnmd]|].
  apply Forall_cons; [apply (impl_kxo (((((T_F3 ||| T_0F38) ||| T_EW1) ||| T_YMM) ||| T_MUST_EVEX) ||| T_B64) 0x27 [128; 256; 512]); [chk|rcm|reflexivity|reflexivity|discriminate|incls|reflexivity|dredk i_vptestnmq]|].
  apply Forall_nil.
Qed.

Definition tab40 : list entry := [
  mkEntry "vfpclassps/koi" [cK; cO] (roi i_vfpclassps) r_vfpclassps_koi VlMem;
  mkEntry "vfpclasspd/koi" [cK; cO] (roi i_vfpclasspd) r_vfpclasspd_koi VlMem;
  mkEntry "vfpclassph/koi" [cK; cO] (roi i_vfpclassph) r_vfpclassph_koi VlMem
].
Lemma tab40_ok : Forall (implements true) tab40.
Proof.
  apply Forall_cons; [apply (impl_fpclass_v (((((T_66 ||| T_0F3A) ||| T_MUST_EVEX) ||| T_YMM) ||| T_EW0) ||| T_B32) 0x66); [chk|rcm|reflexivity|reflexivity|gred i_vfpclassps]|].
  apply Forall_cons; [apply (impl_fpclass_v (((((T_66 ||| T_0F3A) ||| T_MUST_EVEX) ||| T_YMM) ||| T_EW1) ||| T_B64) 0x66); [chk|rcm|reflexivity|reflexivity|gred i_vfpclasspd]|].
  apply Forall_cons; [apply (impl_fpclass_v ((((T_0F3A ||| T_MUST_EVEX) ||| T_YMM) ||| T_EW0) ||| T_B16) 0x66); [chk|rcm|reflexivity|reflexivity|gred i_vfpclassph]|].
  apply Forall_nil.
Qed.

Definition tab41 : list entry := [
  mkEntry "vfpclassss/koi" [cK; cO] (roi i_vfpclassss) r_vfpclassss_koi VlAll;
  mkEntry "vfpclasssd/koi" [cK; cO] (roi i_vfpclasssd) r_vfpclasssd_koi VlAll;
  mkEntry "vfpclasssh/koi" [cK; cO] (roi i_vfpclasssh) r_vfpclasssh_koi VlAll
].
Lemma tab41_ok : Forall (implements true) tab41.
Proof.
  apply Forall_cons; [apply (impl_fpclass_s ((((T_66 ||| T_0F3A) ||| T_MUST_EVEX) ||| T_EW0) ||| T_N4) 0x67); [chk|rcm|reflexivity|reflexivity|gred i_vfpclassss|gredx i_vfpclassss]|].
  apply Forall_cons; [apply (impl_fpclass_s ((((T_66 ||| T_0F3A) ||| T_MUST_EVEX) ||| T_EW1) ||| T_N8) 0x67); [chk|rcm|reflexivity|reflexivity|gred i_vfpclasssd|gredx i_vfpclasssd]|].
  apply Forall_cons; [apply (impl_fpclass_s (((T_0F3A ||| T_MUST_EVEX) ||| T_EW0) ||| T_N2) 0x67); [chk|rcm|reflexivity|reflexivity|gred i_vfpclasssh|gredx i_vfpclasssh]|].
  apply Forall_nil.
Qed.

Definition tab42 : list entry := [
  mkEntry "vfpclasspbf16/koi" [cK; cO] (roi i_vfpclasspbf16) r_vfpclasspbf16_koi VlMem
].
Lemma tab42_ok : Forall (implements true) tab42.
Proof.
  unfold tab42. do 1 (apply Forall_cons; [apply (impl_fpclass_v (((((T_MUST_EVEX ||| T_F2) ||| T_0F3A) ||| T_EW0) ||| T_YMM) ||| T_B16) 0x66); [chk|rcm|reflexivity|reflexivity|gred i_vfpclasspbf16]|]). apply Forall_nil.
Qed.

Definition tab43 : list entry := [
  mkEntry "vpshufbitqmb/kxo" [cK; cX; cO] (rro i_vpshufbitqmb) r_vpshufbitqmb_kxo VlRegs
].
Lemma tab43_ok : Forall (implements true) tab43.
Proof.
  unfold tab43. do 1 (apply Forall_cons; [apply (impl_kxo ((((T_66 ||| T_0F38) ||| T_EW0) ||| T_YMM) ||| T_MUST_EVEX) 0x8F [128; 256; 512]); [chk|rcm|reflexivity|reflexivity|discriminate|incls|reflexivity|dredk i_vpshufbitqmb]|]). apply Forall_nil.
Qed.

Definition tab44 : list entry := [
  mkEntry "vpmovb2m/kx" [cK; cX] (rr i_vpmovb2m) r_vpmovb2m_kx VlAll;
  mkEntry "vpmovw2m/kx" [cK; cX] (rr i_vpmovw2m) r_vpmovw2m_kx VlAll;
  mkEntry "vpmovd2m/kx" [cK; cX] (rr i_vpmovd2m) r_vpmovd2m_kx VlAll;
  mkEntry "vpmovq2m/kx" [cK; cX] (rr i_vpmovq2m) r_vpmovq2m_kx VlAll
].
Lemma tab44_ok : Forall (implements true) tab44.
Proof.
  apply Forall_cons; [apply (impl_kx ((((T_F3 ||| T_0F38) ||| T_MUST_EVEX) ||| T_YMM) ||| T_EW0) 0x29 [128; 256; 512]); [chk|rcm|reflexivity|reflexivity|incls|reflexivity]|].
  apply Forall_cons; [apply (impl_kx ((((T_F3 ||| T_0F38) ||| T_MUST_EVEX) ||| T_YMM) ||| T_EW1) 0x29 [128; 256; 512]); [chk|rcm|reflexivity|reflexivity|incls|reflexivity]|].
  apply Forall_cons; [apply (impl_kx ((((T_F3 ||| T_0F38) ||| T_MUST_EVEX) ||| T_YMM) ||| T_EW0) 0x39 [128; 256; 512]); [chk|rcm|reflexivity|reflexivity|incls|reflexivity]|].
  apply Forall_cons; [apply (impl_kx ((((T_F3 ||| T_0F38) ||| T_MUST_EVEX) ||| T_YMM) ||| T_EW1) 0x39 [128; 256; 512]); [chk|rcm|reflexivity|reflexivity|incls|reflexivity]|].
  apply Forall_nil.
Qed.

Definition tab45 : list entry := [
  mkEntry "vpmovm2b/xk" [cX; cK] (rr i_vpmovm2b) r_vpmovm2b_xk VlRegs;
  mkEntry "vpmovm2w/xk" [cX; cK] (rr i_vpmovm2w) r_vpmovm2w_xk VlRegs;
  mkEntry "vpmovm2d/xk" [cX; cK] (rr i_vpmovm2d) r_vpmovm2d_xk VlRegs;
  mkEntry "vpmovm2q/xk" [cX; cK] (rr i_vpmovm2q) r_vpmovm2q_xk VlRegs;
  mkEntry "vpbroadcastmb2q/xk" [cX; cK] (rr i_vpbroadcastmb2q) r_vpbroadcastmb2q_xk VlRegs;
  mkEntry "vpbroadcastmw2d/xk" [cX; cK] (rr i_vpbroadcastmw2d) r_vpbroadcastmw2d_xk VlRegs;
  mkEntry "vpbroadcastb/xb" [cX; cR 8] (rr i_vpbroadcastb_xb) r_vpbroadcastb_xb VlRegs;
  mkEntry "vpbroadcastw/xw" [cX; cR 16] (rr i_vpbroadcastw_xw) r_vpbroadcastw_xw VlRegs;
  mkEntry "vpbroadcastd/xd" [cX; cR 32] (rr i_vpbroadcastd_xd) r_vpbroadcastd_xd VlRegs;
  mkEntry "vpbroadcastq/xq" [cX; cR 64] (rr i_vpbroadcastq_xq) r_vpbroadcastq_xq VlRegs
].
Lemma tab45_ok : Forall (implements true) tab45.
Proof.
  apply Forall_cons; [apply (impl_d_rr ((((T_F3 ||| T_0F38) ||| T_MUST_EVEX) ||| T_YMM) ||| T_EW0) 0x28 [128; 256; 512]); [reflexivity|discriminate|chk|rcm|reflexivity|reflexivity|dred i_vpmovm2b]|].
  apply Forall_cons; [apply (impl_d_rr ((((T_F3 ||| T_0F38) ||| T_MUST_EVEX) ||| T_YMM) ||| T_EW1) 0x28 [128; 256; 512]); [reflexivity|discriminate|chk|rcm|reflexivity|reflexivity|dred i_vpmovm2w]|].
  apply Forall_cons; [apply (impl_d_rr ((((T_F3 ||| T_0F38) ||| T_MUST_EVEX) ||| T_YMM) ||| T_EW0) 0x38 [128; 256; 512]); [reflexivity|discriminate|chk|rcm|reflexivity|reflexivity|dred i_vpmovm2d]|].
  apply Forall_cons; [apply (impl_d_rr ((((T_F3 ||| T_0F38) ||| T_MUST_EVEX) ||| T_YMM) ||| T_EW1) 0x38 [128; 256; 512]); [reflexivity|discriminate|chk|rcm|reflexivity|reflexivity|dred i_vpmovm2q]|].
  apply Forall_cons; [apply (impl_d_rr ((((T_F3 ||| T_0F38) ||| T_YMM) ||| T_MUST_EVEX) ||| T_EW1) 0x2A [128; 256; 512]); [reflexivity|discriminate|chk|rcm|reflexivity|reflexivity|dred i_vpbroadcastmb2q]|].
  apply Forall_cons; [apply (impl_d_rr ((((T_F3 ||| T_0F38) ||| T_YMM) ||| T_MUST_EVEX) ||| T_EW0) 0x3A [128; 256; 512]); [reflexivity|discriminate|chk|rcm|reflexivity|reflexivity|dred i_vpbroadcastmw2d]|].
  apply Forall_cons; [apply (impl_d_rr ((((T_66 ||| T_0F38) ||| T_EW0) ||| T_YMM) ||| T_MUST_EVEX) 0x7A [128; 256; 512]); [reflexivity|discriminate|chk|rcm|reflexivity|reflexivity|dred i_vpbroadcastb_xb]|].
  apply Forall_cons; [apply (impl_d_rr ((((T_66 ||| T_0F38) ||| T_EW0) ||| T_YMM) ||| T_MUST_EVEX) 0x7B [128; 256; 512]); [reflexivity|discriminate|chk|rcm|reflexivity|reflexivity|dred i_vpbroadcastw_xw]|].
  apply Forall_cons; [apply (impl_d_rr ((((T_66 ||| T_0F38) ||| T_EW0) ||| T_YMM) ||| T_MUST_EVEX) 0x7C [128; 256; 512]); [reflexivity|discriminate|chk|rcm|reflexivity|reflexivity|dred i_vpbroadcastd_xd]|].
  apply Forall_cons; [apply (impl_d_rr ((((T_66 ||| T_0F38) ||| T_EW1) ||| T_YMM) ||| T_MUST_EVEX) 0x7C [128; 256; 512]); [reflexivity|discriminate|chk|rcm|reflexivity|reflexivity|dred i_vpbroadcastq_xq]|].
  apply Forall_nil.
Qed.

Definition tab46 : list entry := [
  mkEntry "vbcstnesh2ps/xa" [cX; cA] (ra i_vbcstnesh2ps) r_vbcstnesh2ps_xa VlRegs;
  mkEntry "vbcstnebf162ps/xa" [cX; cA] (ra i_vbcstnebf162ps) r_vbcstnebf162ps_xa VlRegs;
  mkEntry "vcvtneeph2ps/xa" [cX; cA] (ra i_vcvtneeph2ps) r_vcvtneeph2ps_xa VlRegs;
  mkEntry "vcvtneebf162ps/xa" [cX; cA] (ra i_vcvtneebf162ps) r_vcvtneebf162ps_xa VlRegs;
  mkEntry "vcvtneobf162ps/xa" [cX; cA] (ra i_vcvtneobf162ps) r_vcvtneobf162ps_xa VlRegs;
  mkEntry "vcvtneoph2ps/xa" [cX; cA] (ra i_vcvtneoph2ps) r_vcvtneoph2ps_xa VlRegs;
  mkEntry "vmovntdqa/xa" [cX; cA] (ra i_vmovntdqa) r_vmovntdqa_xa VlRegs
].
Lemma tab46_ok : Forall (implements true) tab46.
Proof.
  apply Forall_cons; [apply (impl_d_ra ((((T_66 ||| T_0F38) ||| T_W0) ||| T_YMM) ||| T_B16) 0xB1 [128; 256; 512]); [reflexivity|chk|rcm|reflexivity|reflexivity|dred i_vbcstnesh2ps]|].
  apply Forall_cons; [apply (impl_d_ra ((((T_F3 ||| T_0F38) ||| T_W0) ||| T_YMM) ||| T_B16) 0xB1 [128; 256; 512]); [reflexivity|chk|rcm|reflexivity|reflexivity|dred i_vbcstnebf162ps]|].
  apply Forall_cons; [apply (impl_d_ra (((T_66 ||| T_0F38) ||| T_W0) ||| T_YMM) 0xB0 [128; 256; 512]); [reflexivity|chk|rcm|reflexivity|reflexivity|dred i_vcvtneeph2ps]|].
  apply Forall_cons; [apply (impl_d_ra (((T_F3 ||| T_0F38) ||| T_W0) ||| T_YMM) 0xB0 [128; 256; 512]); [reflexivity|chk|rcm|reflexivity|reflexivity|dred i_vcvtneebf162ps]|].
  apply Forall_cons; [apply (impl_d_ra (((T_F2 ||| T_0F38) ||| T_W0) ||| T_YMM) 0xB0 [128; 256; 512]); [reflexivity|chk|rcm|reflexivity|reflexivity|dred i_vcvtneobf162ps]|].
  apply Forall_cons; [apply (impl_d_ra ((T_0F38 ||| T_W0) ||| T_YMM) 0xB0 [128; 256; 512]); [reflexivity|chk|rcm|reflexivity|reflexivity|dred i_vcvtneoph2ps]|].
  apply Forall_cons; [apply (impl_d_ra ((((T_0F38 ||| T_66) ||| T_YMM) ||| T_EVEX) ||| T_EW0) 0x2A [128; 256; 512]); [reflexivity|chk|rcm|reflexivity|reflexivity|dred i_vmovntdqa]|].
  apply Forall_nil.
Qed.

Definition tab47 : list entry := [
  mkEntry "vextractf128/oyi" [cO; cY] (ori i_vextractf128) r_vextractf128_oyi VlRegs;
  mkEntry "vextracti128/oyi" [cO; cY] (ori i_vextracti128) r_vextracti128_oyi VlRegs
].
Lemma tab47_ok : Forall (implements true) tab47.
Proof.
  apply Forall_cons; [apply (impl_d_ori (((T_0F3A ||| T_66) ||| T_W0) ||| T_YMM) 0x19 [256]); [reflexivity|discriminate|chk|rcm|reflexivity|reflexivity|dred i_vextractf128]|].
  apply Forall_cons; [apply (impl_d_ori (((T_0F3A ||| T_66) ||| T_W0) ||| T_YMM) 0x39 [256]); [reflexivity|discriminate|chk|rcm|reflexivity|reflexivity|dred i_vextracti128]|].
  apply Forall_nil.
Qed.

Definition tab48 : list entry := [
  mkEntry "vinsertf128/yyoi" [cY; cY; cO] (rroi i_vinsertf128) r_vinsertf128_yyoi VlRegs;
  mkEntry "vinserti128/yyoi" [cY; cY; cO] (rroi i_vinserti128) r_vinserti128_yyoi VlRegs
].
Lemma tab48_ok : Forall (implements true) tab48.
Proof.
  apply Forall_cons; [apply (impl_d_rroi (((T_0F3A ||| T_66) ||| T_W0) ||| T_YMM) 0x18 [256]); [reflexivity|reflexivity|discriminate|chk|rcm|reflexivity|reflexivity|dred2 i_vinsertf128]|].
  apply Forall_cons; [apply (impl_d_rroi (((T_0F3A ||| T_66) ||| T_W0) ||| T_YMM) 0x38 [256]); [reflexivity|reflexivity|discriminate|chk|rcm|reflexivity|reflexivity|dred2 i_vinserti128]|].
  apply Forall_nil.
Qed.

Definition tab49 : list entry := [
  mkEntry "vperm2f128/yyoi" [cY; cY; cO] (rroi i_vperm2f128) r_vperm2f128_yyoi VlRegs;
  mkEntry "vperm2i128/yyoi" [cY; cY; cO] (rroi i_vperm2i128) r_vperm2i128_yyoi VlRegs
].
Lemma tab49_ok : Forall (implements true) tab49.
Proof.
  apply Forall_cons; [apply (impl_d_rroi (((T_0F3A ||| T_66) ||| T_W0) ||| T_YMM) 0x06 [256]); [reflexivity|reflexivity|discriminate|chk|rcm|reflexivity|reflexivity|dred2 i_vperm2f128]|].
  apply Forall_cons; [apply (impl_d_rroi (((T_0F3A ||| T_66) ||| T_W0) ||| T_YMM) 0x46 [256]); [reflexivity|reflexivity|discriminate|chk|rcm|reflexivity|reflexivity|dred2 i_vperm2i128]|].
  apply Forall_nil.
Qed.

Definition tab50 : list entry := [
  mkEntry "vextractps/oxi" [cO; cX] (ori i_vextractps) r_vextractps_oxi VlRegs;
  mkEntry "vpextrd/oxi" [cO; cX] (ori i_vpextrd) r_vpextrd_oxi VlRegs;
  mkEntry "vpextrq/oxi" [cO; cX] (ori i_vpextrq) r_vpextrq_oxi VlRegs
].
Lemma tab50_ok : Forall (implements true) tab50.
Proof.
  apply Forall_cons; [apply (impl_d_ori ((((T_0F3A ||| T_66) ||| T_W0) ||| T_EVEX) ||| T_N4) 0x17 [128]); [reflexivity|discriminate|chk|rcm|reflexivity|reflexivity|dred i_vextractps]|].
  apply Forall_cons; [apply (impl_d_ori (((((T_0F3A ||| T_66) ||| T_W0) ||| T_EVEX) ||| T_EW0) ||| T_N4) 0x16 [128]); [reflexivity|discriminate|chk|rcm|reflexivity|reflexivity|dred i_vpextrd]|].
  apply Forall_cons; [apply (impl_d_ori (((((T_0F3A ||| T_66) ||| T_W1) ||| T_EVEX) ||| T_EW1) ||| T_N8) 0x16 [128]); [reflexivity|discriminate|chk|rcm|reflexivity|reflexivity|dred i_vpextrq]|].
  apply Forall_nil.
Qed.

Definition tab51 : list entry := [
  mkEntry "vmovntdq/ax" [cA; cX] (ar i_vmovntdq) r_vmovntdq_ax VlRegs;
  mkEntry "vmovntpd/ax" [cA; cX] (ar i_vmovntpd) r_vmovntpd_ax VlRegs;
  mkEntry "vmovntps/ax" [cA; cX] (ar i_vmovntps) r_vmovntps_ax VlRegs
].
Lemma tab51_ok : Forall (implements true) tab51.
Proof.
  apply Forall_cons; [apply (impl_d_ar ((((T_0F ||| T_66) ||| T_YMM) ||| T_EVEX) ||| T_EW0) 0xE7 [128; 256; 512]); [reflexivity|chk|rcm|reflexivity|reflexivity|dred i_vmovntdq]|].
  apply Forall_cons; [apply (impl_d_ar ((((T_0F ||| T_66) ||| T_YMM) ||| T_EVEX) ||| T_EW1) 0x2B [128; 256; 512]); [reflexivity|chk|rcm|reflexivity|reflexivity|dred i_vmovntpd]|].
  apply Forall_cons; [apply (impl_d_ar (((T_0F ||| T_YMM) ||| T_EVEX) ||| T_EW0) 0x2B [128; 256; 512]); [reflexivity|chk|rcm|reflexivity|reflexivity|dred i_vmovntps]|].
  apply Forall_nil.
Qed.

Definition tab52 : list entry := [
  mkEntry "vpextrb/oxi" [cO; cX] (ori i_vpextrb) r_vpextrb_oxi VlRegs
].
Lemma tab52_ok : Forall (implements true) tab52.
Proof.
  unfold tab52. do 1 (apply Forall_cons; [apply (impl_d_ori (((T_0F3A ||| T_66) ||| T_EVEX) ||| T_N1) 0x14 [128]); [reflexivity|discriminate|chk|rcm|reflexivity|reflexivity|dred i_vpextrb]|]). apply Forall_nil.
Qed.

Definition tab53 : list entry := [
  mkEntry "vpinsrb/xxoi" [cX; cX; cO] (rroi i_vpinsrb_xxoi) r_vpinsrb_xxoi VlRegs;
  mkEntry "vpinsrw/xxoi" [cX; cX; cO] (rroi i_vpinsrw_xxoi) r_vpinsrw_xxoi VlRegs;
  mkEntry "vpinsrd/xxoi" [cX; cX; cO] (rroi i_vpinsrd_xxoi) r_vpinsrd_xxoi VlRegs;
  mkEntry "vpinsrq/xxoi" [cX; cX; cO] (rroi i_vpinsrq_xxoi) r_vpinsrq_xxoi VlRegs
].
Lemma tab53_ok : Forall (implements true) tab53.
Proof.
  apply Forall_cons; [apply (impl_d_rroi (((T_0F3A ||| T_66) ||| T_EVEX) ||| T_N1) 0x20 [128]); [reflexivity|reflexivity|discriminate|chk|rcm|reflexivity|reflexivity|dred2 i_vpinsrb_xxoi]|].
  apply Forall_cons; [apply (impl_d_rroi (((T_0F ||| T_66) ||| T_EVEX) ||| T_N2) 0xC4 [128]); [reflexivity|reflexivity|discriminate|chk|rcm|reflexivity|reflexivity|dred2 i_vpinsrw_xxoi]|].
  apply Forall_cons; [apply (impl_d_rroi (((((T_0F3A ||| T_66) ||| T_W0) ||| T_EVEX) ||| T_EW0) ||| T_N4) 0x22 [128]); [reflexivity|reflexivity|discriminate|chk|rcm|reflexivity|reflexivity|dred2 i_vpinsrd_xxoi]|].
  apply Forall_cons; [apply (impl_d_rroi (((((T_0F3A ||| T_66) ||| T_W1) ||| T_EVEX) ||| T_EW1) ||| T_N8) 0x22 [128]); [reflexivity|reflexivity|discriminate|chk|rcm|reflexivity|reflexivity|dred2 i_vpinsrq_xxoi]|].
  apply Forall_nil.
Qed.

Definition tab54 : list entry := [
  mkEntry "vpmovmskb/ex" [cRe; cX] (rr i_vpmovmskb) r_vpmovmskb_ex VlAll
].
Lemma tab54_ok : Forall (implements true) tab54.
Proof.
  unfold tab54. do 1 (apply Forall_cons; [apply (impl_movmskb ((T_0F ||| T_66) ||| T_YMM) 0xD7); [rcm|reflexivity|chk|reflexivity|gredb i_vpmovmskb]|]). apply Forall_nil.
Qed.

Definition tab55 : list entry := [
  mkEntry "vsha512msg1/yx" [cY; cX] (rr i_vsha512msg1) r_vsha512msg1_yx VlRegs
].
Lemma tab55_ok : Forall (implements true) tab55.
Proof.
  unfold tab55. do 1 (apply Forall_cons; [apply (impl_d_rr (((T_F2 ||| T_0F38) ||| T_W0) ||| T_YMM) 0xCC [256]); [reflexivity|discriminate|chk|rcm|reflexivity|reflexivity|dred i_vsha512msg1]|]). apply Forall_nil.
Qed.

Definition tab56 : list entry := [
  mkEntry "vsha512msg2/yy" [cY; cY] (rr i_vsha512msg2) r_vsha512msg2_yy VlRegs
].
Lemma tab56_ok : Forall (implements true) tab56.
Proof.
  unfold tab56. do 1 (apply Forall_cons; [apply (impl_d_rr (((T_F2 ||| T_0F38) ||| T_W0) ||| T_YMM) 0xCD [256]); [reflexivity|discriminate|chk|rcm|reflexivity|reflexivity|dred i_vsha512msg2]|]). apply Forall_nil.
Qed.

Definition tab57 : list entry := [
  mkEntry "vsha512rnds2/yyx" [cY; cY; cX] (rrr i_vsha512rnds2) r_vsha512rnds2_yyx VlRegs
].
Lemma tab57_ok : Forall (implements true) tab57.
Proof.
  unfold tab57. do 1 (apply Forall_cons; [apply (impl_d_rrr (((T_F2 ||| T_0F38) ||| T_W0) ||| T_YMM) 0xCB [256]); [reflexivity|reflexivity|discriminate|chk|rcm|reflexivity|reflexivity|dred2 i_vsha512rnds2]|]). apply Forall_nil.
Qed.

Definition tab58 : list entry := [
  mkEntry "vextractf32x4/oyi" [cO; cY] (ori i_vextractf32x4) r_vextractf32x4_oyi VlRegs;
  mkEntry "vextracti32x4/oyi" [cO; cY] (ori i_vextracti32x4) r_vextracti32x4_oyi VlRegs;
  mkEntry "vextractf64x2/oyi" [cO; cY] (ori i_vextractf64x2) r_vextractf64x2_oyi VlRegs;
  mkEntry "vextracti64x2/oyi" [cO; cY] (ori i_vextracti64x2) r_vextracti64x2_oyi VlRegs
].
Lemma tab58_ok : Forall (implements true) tab58.
Proof.
  apply Forall_cons; [apply (impl_d_ori (((((T_N16 ||| T_66) ||| T_0F3A) ||| T_EW0) ||| T_YMM) ||| T_MUST_EVEX) 0x19 [256; 512]); [reflexivity|discriminate|chk|rcm|reflexivity|reflexivity|dred i_vextractf32x4]|].
  apply Forall_cons; [apply (impl_d_ori (((((T_N16 ||| T_66) ||| T_0F3A) ||| T_EW0) ||| T_YMM) ||| T_MUST_EVEX) 0x39 [256; 512]); [reflexivity|discriminate|chk|rcm|reflexivity|reflexivity|dred i_vextracti32x4]|].
  apply Forall_cons; [apply (impl_d_ori (((((T_N16 ||| T_66) ||| T_0F3A) ||| T_EW1) ||| T_YMM) ||| T_MUST_EVEX) 0x19 [256; 512]); [reflexivity|discriminate|chk|rcm|reflexivity|reflexivity|dred i_vextractf64x2]|].
  apply Forall_cons; [apply (impl_d_ori (((((T_N16 ||| T_66) ||| T_0F3A) ||| T_EW1) ||| T_YMM) ||| T_MUST_EVEX) 0x39 [256; 512]); [reflexivity|discriminate|chk|rcm|reflexivity|reflexivity|dred i_vextracti64x2]|].
  apply Forall_nil.
Qed.

Definition tab59 : list entry := [
  mkEntry "vinsertf32x4/yyoi" [cY; cY; cO] (rroi i_vinsertf32x4) r_vinsertf32x4_yyoi VlRegs;
  mkEntry "vinserti32x4/yyoi" [cY; cY; cO] (rroi i_vinserti32x4) r_vinserti32x4_yyoi VlRegs;
  mkEntry "vinsertf64x2/yyoi" [cY; cY; cO] (rroi i_vinsertf64x2) r_vinsertf64x2_yyoi VlRegs;
  mkEntry "vinserti64x2/yyoi" [cY; cY; cO] (rroi i_vinserti64x2) r_vinserti64x2_yyoi VlRegs
].
Lemma tab59_ok : Forall (implements true) tab59.
Proof.
  apply Forall_cons; [apply (impl_d_rroi (((((T_N16 ||| T_66) ||| T_0F3A) ||| T_EW0) ||| T_YMM) ||| T_MUST_EVEX) 0x18 [256; 512]); [reflexivity|reflexivity|discriminate|chk|rcm|reflexivity|reflexivity|dred2 i_vinsertf32x4]|].
  apply Forall_cons; [apply (impl_d_rroi (((((T_N16 ||| T_66) ||| T_0F3A) ||| T_EW0) ||| T_YMM) ||| T_MUST_EVEX) 0x38 [256; 512]); [reflexivity|reflexivity|discriminate|chk|rcm|reflexivity|reflexivity|dred2 i_vinserti32x4]|].
  apply Forall_cons; [apply (impl_d_rroi (((((T_N16 ||| T_66) ||| T_0F3A) ||| T_EW1) ||| T_YMM) ||| T_MUST_EVEX) 0x18 [256; 512]); [reflexivity|reflexivity|discriminate|chk|rcm|reflexivity|reflexivity|dred2 i_vinsertf64x2]|].
  apply Forall_cons; [apply (impl_d_rroi (((((T_N16 ||| T_66) ||| T_0F3A) ||| T_EW1) ||| T_YMM) ||| T_MUST_EVEX) 0x38 [256; 512]); [reflexivity|reflexivity|discriminate|chk|rcm|reflexivity|reflexivity|dred2 i_vinserti64x2]|].
  apply Forall_nil.
Qed.

Definition tab60 : list entry := [
  mkEntry "vextractf32x8/ozi" [cO; cZ] (ori i_vextractf32x8) r_vextractf32x8_ozi VlRegs;
  mkEntry "vextracti32x8/ozi" [cO; cZ] (ori i_vextracti32x8) r_vextracti32x8_ozi VlRegs;
  mkEntry "vextractf64x4/ozi" [cO; cZ] (ori i_vextractf64x4) r_vextractf64x4_ozi VlRegs;
  mkEntry "vextracti64x4/ozi" [cO; cZ] (ori i_vextracti64x4) r_vextracti64x4_ozi VlRegs
].
Lemma tab60_ok : Forall (implements true) tab60.
Proof.
  apply Forall_cons; [apply (impl_d_ori (((((T_N32 ||| T_66) ||| T_0F3A) ||| T_EW0) ||| T_YMM) ||| T_MUST_EVEX) 0x1B [512]); [reflexivity|discriminate|chk|rcm|reflexivity|reflexivity|dred i_vextractf32x8]|].
  apply Forall_cons; [apply (impl_d_ori (((((T_N32 ||| T_66) ||| T_0F3A) ||| T_EW0) ||| T_YMM) ||| T_MUST_EVEX) 0x3B [512]); [reflexivity|discriminate|chk|rcm|reflexivity|reflexivity|dred i_vextracti32x8]|].
  apply Forall_cons; [apply (impl_d_ori (((((T_N32 ||| T_66) ||| T_0F3A) ||| T_EW1) ||| T_YMM) ||| T_MUST_EVEX) 0x1B [512]); [reflexivity|discriminate|chk|rcm|reflexivity|reflexivity|dred i_vextractf64x4]|].
  apply Forall_cons; [apply (impl_d_ori (((((T_N32 ||| T_66) ||| T_0F3A) ||| T_EW1) ||| T_YMM) ||| T_MUST_EVEX) 0x3B [512]); [reflexivity|discriminate|chk|rcm|reflexivity|reflexivity|dred i_vextracti64x4]|].
  apply Forall_nil.
Qed.

Definition tab61 : list entry := [
  mkEntry "vinsertf32x8/zzoi" [cZ; cZ; cO] (rroi i_vinsertf32x8) r_vinsertf32x8_zzoi VlRegs;
  mkEntry "vinserti32x8/zzoi" [cZ; cZ; cO] (rroi i_vinserti32x8) r_vinserti32x8_zzoi VlRegs;
  mkEntry "vinsertf64x4/zzoi" [cZ; cZ; cO] (rroi i_vinsertf64x4) r_vinsertf64x4_zzoi VlRegs;
  mkEntry "vinserti64x4/zzoi" [cZ; cZ; cO] (rroi i_vinserti64x4) r_vinserti64x4_zzoi VlRegs
].
Lemma tab61_ok : Forall (implements true) tab61.
Proof.
  apply Forall_cons; [apply (impl_d_rroi (((((T_N32 ||| T_66) ||| T_0F3A) ||| T_EW0) ||| T_YMM) ||| T_MUST_EVEX) 0x1A [512]); [reflexivity|reflexivity|discriminate|chk|rcm|reflexivity|reflexivity|dred2 i_vinsertf32x8]|].
  apply Forall_cons; [apply (impl_d_rroi (((((T_N32 ||| T_66) ||| T_0F3A) ||| T_EW0) ||| T_YMM) ||| T_MUST_EVEX) 0x3A [512]); [reflexivity|reflexivity|discriminate|chk|rcm|reflexivity|reflexivity|dred2 i_vinserti32x8]|].
  apply Forall_cons; [apply (impl_d_rroi (((((T_N32 ||| T_66) ||| T_0F3A) ||| T_EW1) ||| T_YMM) ||| T_MUST_EVEX) 0x1A [512]); [reflexivity|reflexivity|discriminate|chk|rcm|reflexivity|reflexivity|dred2 i_vinsertf64x4]|].
  apply Forall_cons; [apply (impl_d_rroi (((((T_N32 ||| T_66) ||| T_0F3A) ||| T_EW1) ||| T_YMM) ||| T_MUST_EVEX) 0x3A [512]); [reflexivity|reflexivity|discriminate|chk|rcm|reflexivity|reflexivity|dred2 i_vinserti64x4]|].
  apply Forall_nil.
Qed.

Definition tab62 : list entry := [
  mkEntry "vcvtsd2usi/eo" [cR 32; cO] (ro i_vcvtsd2usi) r_vcvtsd2usi_eo32 VlAll;
  mkEntry "vcvtsd2usi/eo" [cR 64; cO] (ro i_vcvtsd2usi) r_vcvtsd2usi_eo64 VlAll;
  mkEntry "vcvttsd2usi/eo" [cR 32; cO] (ro i_vcvttsd2usi) r_vcvttsd2usi_eo32 VlAll;
  mkEntry "vcvttsd2usi/eo" [cR 64; cO] (ro i_vcvttsd2usi) r_vcvttsd2usi_eo64 VlAll;
  mkEntry "vcvtss2usi/eo" [cR 32; cO] (ro i_vcvtss2usi) r_vcvtss2usi_eo32 VlAll;
  mkEntry "vcvtss2usi/eo" [cR 64; cO] (ro i_vcvtss2usi) r_vcvtss2usi_eo64 VlAll;
  mkEntry "vcvttss2usi/eo" [cR 32; cO] (ro i_vcvttss2usi) r_vcvttss2usi_eo32 VlAll;
  mkEntry "vcvttss2usi/eo" [cR 64; cO] (ro i_vcvttss2usi) r_vcvttss2usi_eo64 VlAll;
  mkEntry "vcvtsh2si/eo" [cR 32; cO] (ro i_vcvtsh2si) r_vcvtsh2si_eo32 VlAll;
  mkEntry "vcvtsh2si/eo" [cR 64; cO] (ro i_vcvtsh2si) r_vcvtsh2si_eo64 VlAll;
  mkEntry "vcvtsh2usi/eo" [cR 32; cO] (ro i_vcvtsh2usi) r_vcvtsh2usi_eo32 VlAll;
  mkEntry "vcvtsh2usi/eo" [cR 64; cO] (ro i_vcvtsh2usi) r_vcvtsh2usi_eo64 VlAll;
  mkEntry "vcvttsh2si/eo" [cR 32; cO] (ro i_vcvttsh2si) r_vcvttsh2si_eo32 VlAll;
  mkEntry "vcvttsh2si/eo" [cR 64; cO] (ro i_vcvttsh2si) r_vcvttsh2si_eo64 VlAll;
  mkEntry "vcvttsh2usi/eo" [cR 32; cO] (ro i_vcvttsh2usi) r_vcvttsh2usi_eo32 VlAll;
  mkEntry "vcvttsh2usi/eo" [cR 64; cO] (ro i_vcvttsh2usi) r_vcvttsh2usi_eo64 VlAll;
  mkEntry "vcvttsd2sis/eo" [cR 32; cO] (ro i_vcvttsd2sis) r_vcvttsd2sis_eo32 VlAll;
  mkEntry "vcvttsd2sis/eo" [cR 64; cO] (ro i_vcvttsd2sis) r_vcvttsd2sis_eo64 VlAll;
  mkEntry "vcvttsd2usis/eo" [cR 32; cO] (ro i_vcvttsd2usis) r_vcvttsd2usis_eo32 VlAll;
  mkEntry "vcvttsd2usis/eo" [cR 64; cO] (ro i_vcvttsd2usis) r_vcvttsd2usis_eo64 VlAll;
  mkEntry "vcvttss2sis/eo" [cR 32; cO] (ro i_vcvttss2sis) r_vcvttss2sis_eo32 VlAll;
  mkEntry "vcvttss2sis/eo" [cR 64; cO] (ro i_vcvttss2sis) r_vcvttss2sis_eo64 VlAll;
  mkEntry "vcvttss2usis/eo" [cR 32; cO] (ro i_vcvttss2usis) r_vcvttss2usis_eo32 VlAll;
  mkEntry "vcvttss2usis/eo" [cR 64; cO] (ro i_vcvttss2usis) r_vcvttss2usis_eo64 VlAll
].
Lemma tab62_ok : Forall (implements true) tab62.
Proof.
  apply Forall_cons; [apply (impl_eo (((((T_N8 ||| T_F2) ||| T_0F) ||| T_ER_X) ||| T_MUST_EVEX)) 0x79 T_EW1 T_EW0 _ _ _ 32); [auto|chk|rcm|reflexivity|reflexivity]|].
  apply Forall_cons; [apply (impl_eo (((((T_N8 ||| T_F2) ||| T_0F) ||| T_ER_X) ||| T_MUST_EVEX)) 0x79 T_EW1 T_EW0 _ _ _ 64); [auto|chk|rcm|reflexivity|reflexivity]|].
  apply Forall_cons; [apply (impl_eo (((((T_N8 ||| T_F2) ||| T_0F) ||| T_SAE_X) ||| T_MUST_EVEX)) 0x78 T_EW1 T_EW0 _ _ _ 32); [auto|chk|rcm|reflexivity|reflexivity]|].
  apply Forall_cons; [apply (impl_eo (((((T_N8 ||| T_F2) ||| T_0F) ||| T_SAE_X) ||| T_MUST_EVEX)) 0x78 T_EW1 T_EW0 _ _ _ 64); [auto|chk|rcm|reflexivity|reflexivity]|].
  apply Forall_cons; [apply (impl_eo (((((T_N4 ||| T_F3) ||| T_0F) ||| T_ER_X) ||| T_MUST_EVEX)) 0x79 T_EW1 T_EW0 _ _ _ 32); [auto|chk|rcm|reflexivity|reflexivity]|].
  apply Forall_cons; [apply (impl_eo (((((T_N4 ||| T_F3) ||| T_0F) ||| T_ER_X) ||| T_MUST_EVEX)) 0x79 T_EW1 T_EW0 _ _ _ 64); [auto|chk|rcm|reflexivity|reflexivity]|].
  apply Forall_cons; [apply (impl_eo (((((T_N4 ||| T_F3) ||| T_0F) ||| T_SAE_X) ||| T_MUST_EVEX)) 0x78 T_EW1 T_EW0 _ _ _ 32); [auto|chk|rcm|reflexivity|reflexivity]|].
  apply Forall_cons; [apply (impl_eo (((((T_N4 ||| T_F3) ||| T_0F) ||| T_SAE_X) ||| T_MUST_EVEX)) 0x78 T_EW1 T_EW0 _ _ _ 64); [auto|chk|rcm|reflexivity|reflexivity]|].
  apply Forall_cons; [apply (impl_eo (((((T_N2 ||| T_F3) ||| T_MAP5) ||| T_ER_X) ||| T_MUST_EVEX)) 0x2D T_EW1 T_EW0 _ _ _ 32); [auto|chk|rcm|reflexivity|reflexivity]|].
  apply Forall_cons; [apply (impl_eo (((((T_N2 ||| T_F3) ||| T_MAP5) ||| T_ER_X) ||| T_MUST_EVEX)) 0x2D T_EW1 T_EW0 _ _ _ 64); [auto|chk|rcm|reflexivity|reflexivity]|].
  apply Forall_cons; [apply (impl_eo (((((T_N2 ||| T_F3) ||| T_MAP5) ||| T_ER_X) ||| T_MUST_EVEX)) 0x79 T_EW1 T_EW0 _ _ _ 32); [auto|chk|rcm|reflexivity|reflexivity]|].
  apply Forall_cons; [apply (impl_eo (((((T_N2 ||| T_F3) ||| T_MAP5) ||| T_ER_X) ||| T_MUST_EVEX)) 0x79 T_EW1 T_EW0 _ _ _ 64); [auto|chk|rcm|reflexivity|reflexivity]|].
  apply Forall_cons; [apply (impl_eo ((((((T_N2 ||| T_F3) ||| T_MAP5) ||| T_EW0) ||| T_SAE_X) ||| T_MUST_EVEX)) 0x2C T_EW1 T_EW0 _ _ _ 32); [auto|chk|rcm|reflexivity|reflexivity]|].
  apply Forall_cons; [apply (impl_eo ((((((T_N2 ||| T_F3) ||| T_MAP5) ||| T_EW0) ||| T_SAE_X) ||| T_MUST_EVEX)) 0x2C T_EW1 T_EW0 _ _ _ 64); [auto|chk|rcm|reflexivity|reflexivity]|].
  apply Forall_cons; [apply (impl_eo ((((((T_N2 ||| T_F3) ||| T_MAP5) ||| T_EW0) ||| T_SAE_X) ||| T_MUST_EVEX)) 0x78 T_EW1 T_EW0 _ _ _ 32); [auto|chk|rcm|reflexivity|reflexivity]|].
  apply Forall_cons; [apply (impl_eo ((((((T_N2 ||| T_F3) ||| T_MAP5) ||| T_EW0) ||| T_SAE_X) ||| T_MUST_EVEX)) 0x78 T_EW1 T_EW0 _ _ _ 64); [auto|chk|rcm|reflexivity|reflexivity]|].
  apply Forall_cons; [apply (impl_eo ((((((T_N8 ||| T_F2) ||| T_MAP5) ||| T_EW0) ||| T_SAE_X) ||| T_MUST_EVEX)) 0x6D T_EW1 T_EW0 _ _ _ 32); [auto|chk|rcm|reflexivity|reflexivity]|].
  apply Forall_cons; [apply (impl_eo ((((((T_N8 ||| T_F2) ||| T_MAP5) ||| T_EW0) ||| T_SAE_X) ||| T_MUST_EVEX)) 0x6D T_EW1 T_EW0 _ _ _ 64); [auto|chk|rcm|reflexivity|reflexivity]|].
  apply Forall_cons; [apply (impl_eo ((((((T_N8 ||| T_F2) ||| T_MAP5) ||| T_EW0) ||| T_SAE_X) ||| T_MUST_EVEX)) 0x6C T_EW1 T_EW0 _ _ _ 32); [auto|chk|rcm|reflexivity|reflexivity]|].
  apply Forall_cons; [apply (impl_eo ((((((T_N8 ||| T_F2) ||| T_MAP5) ||| T_EW0) ||| T_SAE_X) ||| T_MUST_EVEX)) 0x6C T_EW1 T_EW0 _ _ _ 64); [auto|chk|rcm|reflexivity|reflexivity]|].
  apply Forall_cons; [apply (impl_eo ((((((T_N4 ||| T_F3) ||| T_MAP5) ||| T_EW0) ||| T_SAE_X) ||| T_MUST_EVEX)) 0x6D T_EW1 T_EW0 _ _ _ 32); [auto|chk|rcm|reflexivity|reflexivity]|].
  apply Forall_cons; [apply (impl_eo ((((((T_N4 ||| T_F3) ||| T_MAP5) ||| T_EW0) ||| T_SAE_X) ||| T_MUST_EVEX)) 0x6D T_EW1 T_EW0 _ _ _ 64); [auto|chk|rcm|reflexivity|reflexivity]|].
  apply Forall_cons; [apply (impl_eo ((((((T_N4 ||| T_F3) ||| T_MAP5) ||| T_EW0) ||| T_SAE_X) ||| T_MUST_EVEX)) 0x6C T_EW1 T_EW0 _ _ _ 32); [auto|chk|rcm|reflexivity|reflexivity]|].
  apply Forall_cons; [apply (impl_eo ((((((T_N4 ||| T_F3) ||| T_MAP5) ||| T_EW0) ||| T_SAE_X) ||| T_MUST_EVEX)) 0x6C T_EW1 T_EW0 _ _ _ 64); [auto|chk|rcm|reflexivity|reflexivity]|].
  apply Forall_nil.
Qed.

Definition tab63 : list entry := [
  mkEntry "vcvtsi2ss/xxo" [cX; cX; cG 32] (rro i_vcvtsi2ss_xxo) r_vcvtsi2ss_xxo32 VlRegs;
  mkEntry "vcvtsi2ss/xxo" [cX; cX; cG 64] (rro i_vcvtsi2ss_xxo) r_vcvtsi2ss_xxo64 VlRegs;
  mkEntry "vcvtsi2ss/xxo" [cX; cX; cMn 64] (rro i_vcvtsi2ss_xxo) r_vcvtsi2ss_xxo32 VlRegs;
  mkEntry "vcvtsi2ss/xxo" [cX; cX; cMs 64] (rro i_vcvtsi2ss_xxo) r_vcvtsi2ss_xxo64 VlRegs;
  mkEntry "vcvtsi2sd/xxo" [cX; cX; cG 32] (rro i_vcvtsi2sd_xxo) r_vcvtsi2sd_xxo32 VlRegs;
  mkEntry "vcvtsi2sd/xxo" [cX; cX; cG 64] (rro i_vcvtsi2sd_xxo) r_vcvtsi2sd_xxo64 VlRegs;
  mkEntry "vcvtsi2sd/xxo" [cX; cX; cMn 64] (rro i_vcvtsi2sd_xxo) r_vcvtsi2sd_xxo32 VlRegs;
  mkEntry "vcvtsi2sd/xxo" [cX; cX; cMs 64] (rro i_vcvtsi2sd_xxo) r_vcvtsi2sd_xxo64 VlRegs;
  mkEntry "vcvtusi2ss/xxo" [cX; cX; cG 32] (rro i_vcvtusi2ss) r_vcvtusi2ss_xxo32 VlRegs;
  mkEntry "vcvtusi2ss/xxo" [cX; cX; cG 64] (rro i_vcvtusi2ss) r_vcvtusi2ss_xxo64 VlRegs;
  mkEntry "vcvtusi2ss/xxo" [cX; cX; cMn 64] (rro i_vcvtusi2ss) r_vcvtusi2ss_xxo32 VlRegs;
  mkEntry "vcvtusi2ss/xxo" [cX; cX; cMs 64] (rro i_vcvtusi2ss) r_vcvtusi2ss_xxo64 VlRegs;
  mkEntry "vcvtusi2sd/xxo" [cX; cX; cG 32] (rro i_vcvtusi2sd) r_vcvtusi2sd_xxo32 VlRegs;
  mkEntry "vcvtusi2sd/xxo" [cX; cX; cG 64] (rro i_vcvtusi2sd) r_vcvtusi2sd_xxo64 VlRegs;
  mkEntry "vcvtusi2sd/xxo" [cX; cX; cMn 64] (rro i_vcvtusi2sd) r_vcvtusi2sd_xxo32 VlRegs;
  mkEntry "vcvtusi2sd/xxo" [cX; cX; cMs 64] (rro i_vcvtusi2sd) r_vcvtusi2sd_xxo64 VlRegs
].
Lemma tab63_ok : Forall (implements true) tab63.
Proof.
  apply Forall_cons; [apply (impl_cvt3_g _ _ _ _ _ _ _ 32); [auto|chk|rcm|reflexivity|reflexivity]|].
  apply Forall_cons; [apply (impl_cvt3_g _ _ _ _ _ _ _ 64); [auto|chk|rcm|reflexivity|reflexivity]|].
  apply Forall_cons; [apply (impl_cvt3_m _ _ _ _ _ _ _ 32); [auto|chk|rcm|reflexivity|reflexivity|auto]|].
  apply Forall_cons; [apply (impl_cvt3_m _ _ _ _ _ _ _ 64); [auto|chk|rcm|reflexivity|reflexivity|auto]|].
  apply Forall_cons; [apply (impl_cvt3_g _ _ _ _ _ _ _ 32); [auto|chk|rcm|reflexivity|reflexivity]|].
  apply Forall_cons; [apply (impl_cvt3_g _ _ _ _ _ _ _ 64); [auto|chk|rcm|reflexivity|reflexivity]|].
  apply Forall_cons; [apply (impl_cvt3_m _ _ _ _ _ _ _ 32); [auto|chk|rcm|reflexivity|reflexivity|auto]|].
  apply Forall_cons; [apply (impl_cvt3_m _ _ _ _ _ _ _ 64); [auto|chk|rcm|reflexivity|reflexivity|auto]|].
  apply Forall_cons; [apply (impl_cvt3_g _ _ _ _ _ _ _ 32); [auto|chk|rcm|reflexivity|reflexivity]|].
  apply Forall_cons; [apply (impl_cvt3_g _ _ _ _ _ _ _ 64); [auto|chk|rcm|reflexivity|reflexivity]|].
  apply Forall_cons; [apply (impl_cvt3_m _ _ _ _ _ _ _ 32); [auto|chk|rcm|reflexivity|reflexivity|auto]|].
  apply Forall_cons; [apply (impl_cvt3_m _ _ _ _ _ _ _ 64); [auto|chk|rcm|reflexivity|reflexivity|auto]|].
  apply Forall_cons; [apply (impl_cvt3_g _ _ _ _ _ _ _ 32); [auto|chk|rcm|reflexivity|reflexivity]|].
  apply Forall_cons; [apply (impl_cvt3_g _ _ _ _ _ _ _ 64); [auto|chk|rcm|reflexivity|reflexivity]|].
  apply Forall_cons; [apply (impl_cvt3_m _ _ _ _ _ _ _ 32); [auto|chk|rcm|reflexivity|reflexivity|auto]|].
  apply Forall_cons; [apply (impl_cvt3_m _ _ _ _ _ _ _ 64); [auto|chk|rcm|reflexivity|reflexivity|auto]|].
  apply Forall_nil.
Qed.

Definition tab64 : list entry := [
  mkEntry "vcvtsi2sh/xxo" [cX; cX; cR 32] (rro i_vcvtsi2sh) r_vcvtsi2sh_xxo32 VlRegs;
  mkEntry "vcvtsi2sh/xxo" [cX; cX; cR 64] (rro i_vcvtsi2sh) r_vcvtsi2sh_xxo64 VlRegs;
  mkEntry "vcvtsi2sh/xxo" [cX; cX; cMs 32] (rro i_vcvtsi2sh) r_vcvtsi2sh_xxo32 VlRegs;
  mkEntry "vcvtsi2sh/xxo" [cX; cX; cMs 64] (rro i_vcvtsi2sh) r_vcvtsi2sh_xxo64 VlRegs;
  mkEntry "vcvtusi2sh/xxo" [cX; cX; cR 32] (rro i_vcvtusi2sh) r_vcvtusi2sh_xxo32 VlRegs;
  mkEntry "vcvtusi2sh/xxo" [cX; cX; cR 64] (rro i_vcvtusi2sh) r_vcvtusi2sh_xxo64 VlRegs;
  mkEntry "vcvtusi2sh/xxo" [cX; cX; cMs 32] (rro i_vcvtusi2sh) r_vcvtusi2sh_xxo32 VlRegs;
  mkEntry "vcvtusi2sh/xxo" [cX; cX; cMs 64] (rro i_vcvtusi2sh) r_vcvtusi2sh_xxo64 VlRegs
].
Lemma tab64_ok : Forall (implements false) tab64.
Proof.
  apply Forall_cons; [apply (impl_si2sh (((((T_F3 ||| T_MAP5) ||| T_ER_R) ||| T_MUST_EVEX) ||| T_M_K)) 0x2A (T_EW1 ||| T_N8) (T_EW0 ||| T_N4) _ _ _ 32); [auto|chk|rcm|reflexivity|reflexivity|auto|gredg i_vcvtsi2sh]|].
  apply Forall_cons; [apply (impl_si2sh (((((T_F3 ||| T_MAP5) ||| T_ER_R) ||| T_MUST_EVEX) ||| T_M_K)) 0x2A (T_EW1 ||| T_N8) (T_EW0 ||| T_N4) _ _ _ 64); [auto|chk|rcm|reflexivity|reflexivity|auto|gredg i_vcvtsi2sh]|].
  apply Forall_cons; [apply (impl_si2sh (((((T_F3 ||| T_MAP5) ||| T_ER_R) ||| T_MUST_EVEX) ||| T_M_K)) 0x2A (T_EW1 ||| T_N8) (T_EW0 ||| T_N4) _ _ _ 32); [auto|chk|rcm|reflexivity|reflexivity|auto|gredg i_vcvtsi2sh]|].
  apply Forall_cons; [apply (impl_si2sh (((((T_F3 ||| T_MAP5) ||| T_ER_R) ||| T_MUST_EVEX) ||| T_M_K)) 0x2A (T_EW1 ||| T_N8) (T_EW0 ||| T_N4) _ _ _ 64); [auto|chk|rcm|reflexivity|reflexivity|auto|gredg i_vcvtsi2sh]|].
  apply Forall_cons; [apply (impl_si2sh (((((T_F3 ||| T_MAP5) ||| T_ER_R) ||| T_MUST_EVEX) ||| T_M_K)) 0x7B (T_EW1 ||| T_N8) (T_EW0 ||| T_N4) _ _ _ 32); [auto|chk|rcm|reflexivity|reflexivity|auto|gredg i_vcvtusi2sh]|].
  apply Forall_cons; [apply (impl_si2sh (((((T_F3 ||| T_MAP5) ||| T_ER_R) ||| T_MUST_EVEX) ||| T_M_K)) 0x7B (T_EW1 ||| T_N8) (T_EW0 ||| T_N4) _ _ _ 64); [auto|chk|rcm|reflexivity|reflexivity|auto|gredg i_vcvtusi2sh]|].
  apply Forall_cons; [apply (impl_si2sh (((((T_F3 ||| T_MAP5) ||| T_ER_R) ||| T_MUST_EVEX) ||| T_M_K)) 0x7B (T_EW1 ||| T_N8) (T_EW0 ||| T_N4) _ _ _ 32); [auto|chk|rcm|reflexivity|reflexivity|auto|gredg i_vcvtusi2sh]|].
  apply Forall_cons; [apply (impl_si2sh (((((T_F3 ||| T_MAP5) ||| T_ER_R) ||| T_MUST_EVEX) ||| T_M_K)) 0x7B (T_EW1 ||| T_N8) (T_EW0 ||| T_N4) _ _ _ 64); [auto|chk|rcm|reflexivity|reflexivity|auto|gredg i_vcvtusi2sh]|].
  apply Forall_nil.
Qed.

Definition tab65 : list entry := [
  mkEntry "vpmovwb/ox" [cO; cX] (or_ i_vpmovwb) r_vpmovwb_ox VlRegs;
  mkEntry "vpmovswb/ox" [cO; cX] (or_ i_vpmovswb) r_vpmovswb_ox VlRegs;
  mkEntry "vpmovuswb/ox" [cO; cX] (or_ i_vpmovuswb) r_vpmovuswb_ox VlRegs;
  mkEntry "vpmovdw/ox" [cO; cX] (or_ i_vpmovdw) r_vpmovdw_ox VlRegs;
  mkEntry "vpmovsdw/ox" [cO; cX] (or_ i_vpmovsdw) r_vpmovsdw_ox VlRegs;
  mkEntry "vpmovusdw/ox" [cO; cX] (or_ i_vpmovusdw) r_vpmovusdw_ox VlRegs;
  mkEntry "vpmovqd/ox" [cO; cX] (or_ i_vpmovqd) r_vpmovqd_ox VlRegs;
  mkEntry "vpmovsqd/ox" [cO; cX] (or_ i_vpmovsqd) r_vpmovsqd_ox VlRegs;
  mkEntry "vpmovusqd/ox" [cO; cX] (or_ i_vpmovusqd) r_vpmovusqd_ox VlRegs
].
Lemma tab65_ok : Forall (implements true) tab65.
Proof.
  apply Forall_cons; [apply (impl_d_or (((((((T_N8 ||| T_N_VL) ||| T_F3) ||| T_0F38) ||| T_EW0) ||| T_YMM) ||| T_MUST_EVEX) ||| T_M_K) 0x30 [128; 256; 512]); [reflexivity|discriminate|chk|rcm|reflexivity|reflexivity|dred i_vpmovwb]|].
  apply Forall_cons; [apply (impl_d_or (((((((T_N8 ||| T_N_VL) ||| T_F3) ||| T_0F38) ||| T_EW0) ||| T_YMM) ||| T_MUST_EVEX) ||| T_M_K) 0x20 [128; 256; 512]); [reflexivity|discriminate|chk|rcm|reflexivity|reflexivity|dred i_vpmovswb]|].
  apply Forall_cons; [apply (impl_d_or (((((((T_N8 ||| T_N_VL) ||| T_F3) ||| T_0F38) ||| T_EW0) ||| T_YMM) ||| T_MUST_EVEX) ||| T_M_K) 0x10 [128; 256; 512]); [reflexivity|discriminate|chk|rcm|reflexivity|reflexivity|dred i_vpmovuswb]|].
  apply Forall_cons; [apply (impl_d_or (((((((T_N8 ||| T_N_VL) ||| T_F3) ||| T_0F38) ||| T_EW0) ||| T_YMM) ||| T_MUST_EVEX) ||| T_M_K) 0x33 [128; 256; 512]); [reflexivity|discriminate|chk|rcm|reflexivity|reflexivity|dred i_vpmovdw]|].
  apply Forall_cons; [apply (impl_d_or (((((((T_N8 ||| T_N_VL) ||| T_F3) ||| T_0F38) ||| T_EW0) ||| T_YMM) ||| T_MUST_EVEX) ||| T_M_K) 0x23 [128; 256; 512]); [reflexivity|discriminate|chk|rcm|reflexivity|reflexivity|dred i_vpmovsdw]|].
  apply Forall_cons; [apply (impl_d_or (((((((T_N8 ||| T_N_VL) ||| T_F3) ||| T_0F38) ||| T_EW0) ||| T_YMM) ||| T_MUST_EVEX) ||| T_M_K) 0x13 [128; 256; 512]); [reflexivity|discriminate|chk|rcm|reflexivity|reflexivity|dred i_vpmovusdw]|].
  apply Forall_cons; [apply (impl_d_or (((((((T_N8 ||| T_N_VL) ||| T_F3) ||| T_0F38) ||| T_EW0) ||| T_YMM) ||| T_MUST_EVEX) ||| T_M_K) 0x35 [128; 256; 512]); [reflexivity|discriminate|chk|rcm|reflexivity|reflexivity|dred i_vpmovqd]|].
  apply Forall_cons; [apply (impl_d_or (((((((T_N8 ||| T_N_VL) ||| T_F3) ||| T_0F38) ||| T_EW0) ||| T_YMM) ||| T_MUST_EVEX) ||| T_M_K) 0x25 [128; 256; 512]); [reflexivity|discriminate|chk|rcm|reflexivity|reflexivity|dred i_vpmovsqd]|].
  apply Forall_cons; [apply (impl_d_or (((((((T_N8 ||| T_N_VL) ||| T_F3) ||| T_0F38) ||| T_EW0) ||| T_YMM) ||| T_MUST_EVEX) ||| T_M_K) 0x15 [128; 256; 512]); [reflexivity|discriminate|chk|rcm|reflexivity|reflexivity|dred i_vpmovusqd]|].
  apply Forall_nil.
Qed.

Definition tab66 : list entry := [
  mkEntry "vpmovdb/ox" [cO; cX] (or_ i_vpmovdb) r_vpmovdb_ox VlRegs;
  mkEntry "vpmovsdb/ox" [cO; cX] (or_ i_vpmovsdb) r_vpmovsdb_ox VlRegs;
  mkEntry "vpmovusdb/ox" [cO; cX] (or_ i_vpmovusdb) r_vpmovusdb_ox VlRegs;
  mkEntry "vpmovqb/ox" [cO; cX] (or_ i_vpmovqb) r_vpmovqb_ox VlRegs;
  mkEntry "vpmovsqb/ox" [cO; cX] (or_ i_vpmovsqb) r_vpmovsqb_ox VlRegs;
  mkEntry "vpmovusqb/ox" [cO; cX] (or_ i_vpmovusqb) r_vpmovusqb_ox VlRegs;
  mkEntry "vpmovqw/ox" [cO; cX] (or_ i_vpmovqw) r_vpmovqw_ox VlRegs;
  mkEntry "vpmovsqw/ox" [cO; cX] (or_ i_vpmovsqw) r_vpmovsqw_ox VlRegs;
  mkEntry "vpmovusqw/ox" [cO; cX] (or_ i_vpmovusqw) r_vpmovusqw_ox VlRegs
].
Lemma tab66_ok : Forall (implements true) tab66.
Proof.
  apply Forall_cons; [apply (impl_d_or (((((((T_N4 ||| T_N_VL) ||| T_F3) ||| T_0F38) ||| T_EW0) ||| T_YMM) ||| T_MUST_EVEX) ||| T_M_K) 0x31 [128; 256; 512]); [reflexivity|discriminate|chk|rcm|reflexivity|reflexivity|dred i_vpmovdb]|].
  apply Forall_cons; [apply (impl_d_or (((((((T_N4 ||| T_N_VL) ||| T_F3) ||| T_0F38) ||| T_EW0) ||| T_YMM) ||| T_MUST_EVEX) ||| T_M_K) 0x21 [128; 256; 512]); [reflexivity|discriminate|chk|rcm|reflexivity|reflexivity|dred i_vpmovsdb]|].
  apply Forall_cons; [apply (impl_d_or (((((((T_N4 ||| T_N_VL) ||| T_F3) ||| T_0F38) ||| T_EW0) ||| T_YMM) ||| T_MUST_EVEX) ||| T_M_K) 0x11 [128; 256; 512]); [reflexivity|discriminate|chk|rcm|reflexivity|reflexivity|dred i_vpmovusdb]|].
  apply Forall_cons; [apply (impl_d_or (((((((T_N2 ||| T_N_VL) ||| T_F3) ||| T_0F38) ||| T_EW0) ||| T_YMM) ||| T_MUST_EVEX) ||| T_M_K) 0x32 [128; 256; 512]); [reflexivity|discriminate|chk|rcm|reflexivity|reflexivity|dred i_vpmovqb]|].
  apply Forall_cons; [apply (impl_d_or (((((((T_N2 ||| T_N_VL) ||| T_F3) ||| T_0F38) ||| T_EW0) ||| T_YMM) ||| T_MUST_EVEX) ||| T_M_K) 0x22 [128; 256; 512]); [reflexivity|discriminate|chk|rcm|reflexivity|reflexivity|dred i_vpmovsqb]|].
  apply Forall_cons; [apply (impl_d_or (((((((T_N2 ||| T_N_VL) ||| T_F3) ||| T_0F38) ||| T_EW0) ||| T_YMM) ||| T_MUST_EVEX) ||| T_M_K) 0x12 [128; 256; 512]); [reflexivity|discriminate|chk|rcm|reflexivity|reflexivity|dred i_vpmovusqb]|].
  apply Forall_cons; [apply (impl_d_or (((((((T_N4 ||| T_N_VL) ||| T_F3) ||| T_0F38) ||| T_EW0) ||| T_YMM) ||| T_MUST_EVEX) ||| T_M_K) 0x34 [128; 256; 512]); [reflexivity|discriminate|chk|rcm|reflexivity|reflexivity|dred i_vpmovqw]|].
  apply Forall_cons; [apply (impl_d_or (((((((T_N4 ||| T_N_VL) ||| T_F3) ||| T_0F38) ||| T_EW0) ||| T_YMM) ||| T_MUST_EVEX) ||| T_M_K) 0x24 [128; 256; 512]); [reflexivity|discriminate|chk|rcm|reflexivity|reflexivity|dred i_vpmovsqw]|].
  apply Forall_cons; [apply (impl_d_or (((((((T_N4 ||| T_N_VL) ||| T_F3) ||| T_0F38) ||| T_EW0) ||| T_YMM) ||| T_MUST_EVEX) ||| T_M_K) 0x14 [128; 256; 512]); [reflexivity|discriminate|chk|rcm|reflexivity|reflexivity|dred i_vpmovusqw]|].
  apply Forall_nil.
Qed.

Definition tab67 (enc : PreferredEncoding) : list entry := [
  mkEntry "vpdpbssd/xxop" [cX; cX; cO] (rro (fun a b o => i_vpdpbssd a b o enc)) r_vpdpbssd_xxop VlRegs;
  mkEntry "vpdpbssds/xxop" [cX; cX; cO] (rro (fun a b o => i_vpdpbssds a b o enc)) r_vpdpbssds_xxop VlRegs;
  mkEntry "vpdpbsud/xxop" [cX; cX; cO] (rro (fun a b o => i_vpdpbsud a b o enc)) r_vpdpbsud_xxop VlRegs;
  mkEntry "vpdpbsuds/xxop" [cX; cX; cO] (rro (fun a b o => i_vpdpbsuds a b o enc)) r_vpdpbsuds_xxop VlRegs;
  mkEntry "vpdpbuud/xxop" [cX; cX; cO] (rro (fun a b o => i_vpdpbuud a b o enc)) r_vpdpbuud_xxop VlRegs;
  mkEntry "vpdpbuuds/xxop" [cX; cX; cO] (rro (fun a b o => i_vpdpbuuds a b o enc)) r_vpdpbuuds_xxop VlRegs;
  mkEntry "vpdpwsud/xxop" [cX; cX; cO] (rro (fun a b o => i_vpdpwsud a b o enc)) r_vpdpwsud_xxop VlRegs;
  mkEntry "vpdpwsuds/xxop" [cX; cX; cO] (rro (fun a b o => i_vpdpwsuds a b o enc)) r_vpdpwsuds_xxop VlRegs;
  mkEntry "vpdpwusd/xxop" [cX; cX; cO] (rro (fun a b o => i_vpdpwusd a b o enc)) r_vpdpwusd_xxop VlRegs;
  mkEntry "vpdpwusds/xxop" [cX; cX; cO] (rro (fun a b o => i_vpdpwusds a b o enc)) r_vpdpwusds_xxop VlRegs;
  mkEntry "vpdpwuud/xxop" [cX; cX; cO] (rro (fun a b o => i_vpdpwuud a b o enc)) r_vpdpwuud_xxop VlRegs;
  mkEntry "vpdpwuuds/xxop" [cX; cX; cO] (rro (fun a b o => i_vpdpwuuds a b o enc)) r_vpdpwuuds_xxop VlRegs
].
Lemma tab67_ok enc : Forall (implements true) (tab67 enc).
Proof.
  unfold tab67. do 12 (apply Forall_cons; [apply impl_enc; [reflexivity|reflexivity|discriminate|chk|rcm|chk|rcm|reflexivity|reflexivity]|]). apply Forall_nil.
Qed.

Definition tab68 : list entry := [
  mkEntry "kaddb/kkk" [cK; cK; cK] (rrr i_kaddb) r_kaddb_kkk VlAll;
  mkEntry "kaddw/kkk" [cK; cK; cK] (rrr i_kaddw) r_kaddw_kkk VlAll;
  mkEntry "kaddd/kkk" [cK; cK; cK] (rrr i_kaddd) r_kaddd_kkk VlAll;
  mkEntry "kaddq/kkk" [cK; cK; cK] (rrr i_kaddq) r_kaddq_kkk VlAll;
  mkEntry "kandb/kkk" [cK; cK; cK] (rrr i_kandb) r_kandb_kkk VlAll;
  mkEntry "kandw/kkk" [cK; cK; cK] (rrr i_kandw) r_kandw_kkk VlAll;
  mkEntry "kandd/kkk" [cK; cK; cK] (rrr i_kandd) r_kandd_kkk VlAll;
  mkEntry "kandq/kkk" [cK; cK; cK] (rrr i_kandq) r_kandq_kkk VlAll;
  mkEntry "kandnb/kkk" [cK; cK; cK] (rrr i_kandnb) r_kandnb_kkk VlAll;
  mkEntry "kandnw/kkk" [cK; cK; cK] (rrr i_kandnw) r_kandnw_kkk VlAll;
  mkEntry "kandnd/kkk" [cK; cK; cK] (rrr i_kandnd) r_kandnd_kkk VlAll;
  mkEntry "kandnq/kkk" [cK; cK; cK] (rrr i_kandnq) r_kandnq_kkk VlAll;
  mkEntry "korb/kkk" [cK; cK; cK] (rrr i_korb) r_korb_kkk VlAll;
  mkEntry "korw/kkk" [cK; cK; cK] (rrr i_korw) r_korw_kkk VlAll;
  mkEntry "kord/kkk" [cK; cK; cK] (rrr i_kord) r_kord_kkk VlAll;
  mkEntry "korq/kkk" [cK; cK; cK] (rrr i_korq) r_korq_kkk VlAll;
  mkEntry "kxnorb/kkk" [cK; cK; cK] (rrr i_kxnorb) r_kxnorb_kkk VlAll;
  mkEntry "kxnorw/kkk" [cK; cK; cK] (rrr i_kxnorw) r_kxnorw_kkk VlAll;
  mkEntry "kxnord/kkk" [cK; cK; cK] (rrr i_kxnord) r_kxnord_kkk VlAll;
  mkEntry "kxnorq/kkk" [cK; cK; cK] (rrr i_kxnorq) r_kxnorq_kkk VlAll;
  mkEntry "kxorb/kkk" [cK; cK; cK] (rrr i_kxorb) r_kxorb_kkk VlAll;
  mkEntry "kxorw/kkk" [cK; cK; cK] (rrr i_kxorw) r_kxorw_kkk VlAll;
  mkEntry "kxord/kkk" [cK; cK; cK] (rrr i_kxord) r_kxord_kkk VlAll;
  mkEntry "kxorq/kkk" [cK; cK; cK] (rrr i_kxorq) r_kxorq_kkk VlAll;
  mkEntry "kunpckbw/kkk" [cK; cK; cK] (rrr i_kunpckbw) r_kunpckbw_kkk VlAll;
  mkEntry "kunpckwd/kkk" [cK; cK; cK] (rrr i_kunpckwd) r_kunpckwd_kkk VlAll;
  mkEntry "kunpckdq/kkk" [cK; cK; cK] (rrr i_kunpckdq) r_kunpckdq_kkk VlAll
].
Lemma tab68_ok : Forall (implements true) tab68.
Proof.
  unfold tab68. do 27 (apply Forall_cons; [eapply (impl_kkk _ _ [128]); [chk|rcm|reflexivity|reflexivity|reflexivity]|]). apply Forall_nil.
Qed.

Definition tab69 : list entry := [
  mkEntry "knotb/kk" [cK; cK] (rr i_knotb) r_knotb_kk VlAll;
  mkEntry "knotw/kk" [cK; cK] (rr i_knotw) r_knotw_kk VlAll;
  mkEntry "knotd/kk" [cK; cK] (rr i_knotd) r_knotd_kk VlAll;
  mkEntry "knotq/kk" [cK; cK] (rr i_knotq) r_knotq_kk VlAll;
  mkEntry "kortestb/kk" [cK; cK] (rr i_kortestb) r_kortestb_kk VlAll;
  mkEntry "kortestw/kk" [cK; cK] (rr i_kortestw) r_kortestw_kk VlAll;
  mkEntry "kortestd/kk" [cK; cK] (rr i_kortestd) r_kortestd_kk VlAll;
  mkEntry "kortestq/kk" [cK; cK] (rr i_kortestq) r_kortestq_kk VlAll;
  mkEntry "ktestb/kk" [cK; cK] (rr i_ktestb) r_ktestb_kk VlAll;
  mkEntry "ktestw/kk" [cK; cK] (rr i_ktestw) r_ktestw_kk VlAll;
  mkEntry "ktestd/kk" [cK; cK] (rr i_ktestd) r_ktestd_kk VlAll;
  mkEntry "ktestq/kk" [cK; cK] (rr i_ktestq) r_ktestq_kk VlAll
].
Lemma tab69_ok : Forall (implements true) tab69.
Proof.
  unfold tab69. do 12 (apply Forall_cons; [eapply (impl_kk _ _ [128]); [chk|rcm|reflexivity|reflexivity|reflexivity]|]). apply Forall_nil.
Qed.

Definition tab70 : list entry := [
  mkEntry "kshiftlb/kki" [cK; cK] (rri i_kshiftlb) r_kshiftlb_kki VlAll;
  mkEntry "kshiftlw/kki" [cK; cK] (rri i_kshiftlw) r_kshiftlw_kki VlAll;
  mkEntry "kshiftld/kki" [cK; cK] (rri i_kshiftld) r_kshiftld_kki VlAll;
  mkEntry "kshiftlq/kki" [cK; cK] (rri i_kshiftlq) r_kshiftlq_kki VlAll;
  mkEntry "kshiftrb/kki" [cK; cK] (rri i_kshiftrb) r_kshiftrb_kki VlAll;
  mkEntry "kshiftrw/kki" [cK; cK] (rri i_kshiftrw) r_kshiftrw_kki VlAll;
  mkEntry "kshiftrd/kki" [cK; cK] (rri i_kshiftrd) r_kshiftrd_kki VlAll;
  mkEntry "kshiftrq/kki" [cK; cK] (rri i_kshiftrq) r_kshiftrq_kki VlAll
].
Lemma tab70_ok : Forall (implements true) tab70.
Proof.
  unfold tab70. do 8 (apply Forall_cons; [eapply (impl_kki _ _ [128]); [chk|rcm|reflexivity|reflexivity|reflexivity]|]). apply Forall_nil.
Qed.

Definition tab71 : list entry := [
  mkEntry "tilezero/t" [cT] (r1 i_tilezero) r_tilezero_t VlAll
].
Lemma tab71_ok : Forall (implements true) tab71.
Proof.
  unfold tab71. do 1 (apply Forall_cons; [eapply impl_t; [chk|reflexivity|reflexivity|reflexivity|reflexivity|reflexivity]|]). apply Forall_nil.
Qed.

Definition tab72 : list entry := [
  mkEntry "tdpbssd/ttt" [cT; cT; cT] (rrr i_tdpbssd) r_tdpbssd_ttt VlAll;
  mkEntry "tdpbsud/ttt" [cT; cT; cT] (rrr i_tdpbsud) r_tdpbsud_ttt VlAll;
  mkEntry "tdpbusd/ttt" [cT; cT; cT] (rrr i_tdpbusd) r_tdpbusd_ttt VlAll;
  mkEntry "tdpbuud/ttt" [cT; cT; cT] (rrr i_tdpbuud) r_tdpbuud_ttt VlAll;
  mkEntry "tdpfp16ps/ttt" [cT; cT; cT] (rrr i_tdpfp16ps) r_tdpfp16ps_ttt VlAll;
  mkEntry "tdpbf16ps/ttt" [cT; cT; cT] (rrr i_tdpbf16ps) r_tdpbf16ps_ttt VlAll
].
Lemma tab72_ok : Forall (implements true) tab72.
Proof.
  unfold tab72. do 6 (apply Forall_cons; [eapply impl_ttt; [chk|reflexivity|reflexivity|reflexivity|reflexivity|reflexivity]|]). apply Forall_nil.
Qed.

Definition vex_table (enc : PreferredEncoding) : list entry := tab0 ++ tab1 ++ tab2 ++ tab3 ++ tab6 ++ tab7 ++ tab8 ++ tab9 ++ tab10 ++ tab11 ++ tab12 ++ tab13 ++ tab14 ++ tab15 ++ tab16 ++ tab17 ++ tab18 ++ tab19 ++ tab20 ++ tab21 ++ tab23 ++ tab24 ++ tab25 ++ tab26 ++ tab27 ++ tab28 ++ tab31 ++ tab32 ++ tab33 ++ tab34 ++ tab35 ++ tab36 ++ tab37 ++ tab38 ++ tab39 ++ tab40 ++ tab41 ++ tab42 ++ tab43 ++ tab44 ++ tab45 ++ tab46 ++ tab47 ++ tab48 ++ tab49 ++ tab50 ++ tab51 ++ tab52 ++ tab53 ++ tab54 ++ tab55 ++ tab56 ++ tab57 ++ tab58 ++ tab59 ++ tab60 ++ tab61 ++ tab62 ++ tab63 ++ tab65 ++ tab66 ++ tab67 enc ++ tab68 ++ tab69 ++ tab70 ++ tab71 ++ tab72.
Lemma vex_table_ok enc : Forall (implements true) (vex_table enc).
Proof. unfold vex_table. rewrite ?Forall_app. intuition auto using tab0_ok, tab1_ok, tab2_ok, tab3_ok, tab6_ok, tab7_ok, tab8_ok, tab9_ok, tab10_ok, tab11_ok, tab12_ok, tab13_ok, tab14_ok, tab15_ok, tab16_ok, tab17_ok, tab18_ok, tab19_ok, tab20_ok, tab21_ok, tab23_ok, tab24_ok, tab25_ok, tab26_ok, tab27_ok, tab28_ok, tab31_ok, tab32_ok, tab33_ok, tab34_ok, tab35_ok, tab36_ok, tab37_ok, tab38_ok, tab39_ok, tab40_ok, tab41_ok, tab42_ok, tab43_ok, tab44_ok, tab45_ok, tab46_ok, tab47_ok, tab48_ok, tab49_ok, tab50_ok, tab51_ok, tab52_ok, tab53_ok, tab54_ok, tab55_ok, tab56_ok, tab57_ok, tab58_ok, tab59_ok, tab60_ok, tab61_ok, tab62_ok, tab63_ok, tab65_ok, tab66_ok, tab67_ok, tab68_ok, tab69_ok, tab70_ok, tab71_ok, tab72_ok. Qed.
Definition vex_table_norc (enc : PreferredEncoding) : list entry := tab4 ++ tab5 ++ tab22 enc ++ tab29 ++ tab30 ++ tab64.
Lemma vex_table_norc_ok enc : Forall (implements false) (vex_table_norc enc).
Proof. unfold vex_table_norc. rewrite ?Forall_app. intuition auto using tab4_ok, tab5_ok, tab22_ok, tab29_ok, tab30_ok, tab64_ok. Qed.
Definition tab_avx2 : list (string * vrow * vsib * (Reg -> Address -> Reg -> E unit)) := [
  ("vgatherdps/xax"%string, r_vgatherdps_xax, GSame, i_vgatherdps_xax);
  ("vgatherdpd/xax"%string, r_vgatherdpd_xax, GHalf, i_vgatherdpd_xax);
  ("vgatherqps/xax"%string, r_vgatherqps_xax, GTwice, i_vgatherqps_xax);
  ("vgatherqpd/xax"%string, r_vgatherqpd_xax, GSame, i_vgatherqpd_xax);
  ("vpgatherdd/xax"%string, r_vpgatherdd_xax, GSame, i_vpgatherdd_xax);
  ("vpgatherdq/xax"%string, r_vpgatherdq_xax, GHalf, i_vpgatherdq_xax);
  ("vpgatherqd/xax"%string, r_vpgatherqd_xax, GTwice, i_vpgatherqd_xax);
  ("vpgatherqq/xax"%string, r_vpgatherqq_xax, GSame, i_vpgatherqq_xax)
].
Lemma tab_avx2_ok : Forall (fun '(_, r, g, f) => gather_avx2 r g f) tab_avx2.
Proof.
  unfold tab_avx2. do 8 (apply Forall_cons; [cbv beta iota; apply impl_gather; [chk|chk|reflexivity|reflexivity|discriminate|reflexivity]|]). apply Forall_nil.
Qed.

Definition tab_gather : list (string * vrow * vsib * (Reg -> Address -> E unit)) := [
  ("vgatherdps/xa"%string, r_vgatherdps_xa, GSame, i_vgatherdps_xa);
  ("vgatherdpd/xa"%string, r_vgatherdpd_xa, GHalf, i_vgatherdpd_xa);
  ("vgatherqps/xa"%string, r_vgatherqps_xa, GTwice, i_vgatherqps_xa);
  ("vgatherqpd/xa"%string, r_vgatherqpd_xa, GSame, i_vgatherqpd_xa);
  ("vpgatherdd/xa"%string, r_vpgatherdd_xa, GSame, i_vpgatherdd_xa);
  ("vpgatherdq/xa"%string, r_vpgatherdq_xa, GHalf, i_vpgatherdq_xa);
  ("vpgatherqd/xa"%string, r_vpgatherqd_xa, GTwice, i_vpgatherqd_xa);
  ("vpgatherqq/xa"%string, r_vpgatherqq_xa, GSame, i_vpgatherqq_xa)
].
Lemma tab_gather_ok : Forall (fun '(_, r, g, f) => gather_evex true r g f) tab_gather.
Proof.
  unfold tab_gather. do 8 (apply Forall_cons; [cbv beta iota; apply impl_gather2; [chk|reflexivity|discriminate|chk|reflexivity|reflexivity|reflexivity]|]). apply Forall_nil.
Qed.

Definition tab_scatter : list (string * vrow * vsib * (Reg -> Address -> E unit)) := [
  ("vscatterdps/ax"%string, r_vscatterdps_ax, GSame, fun x m => i_vscatterdps m x);
  ("vscatterdpd/ax"%string, r_vscatterdpd_ax, GHalf, fun x m => i_vscatterdpd m x);
  ("vscatterqps/ax"%string, r_vscatterqps_ax, GTwice, fun x m => i_vscatterqps m x);
  ("vscatterqpd/ax"%string, r_vscatterqpd_ax, GSame, fun x m => i_vscatterqpd m x);
  ("vpscatterdd/ax"%string, r_vpscatterdd_ax, GSame, fun x m => i_vpscatterdd m x);
  ("vpscatterdq/ax"%string, r_vpscatterdq_ax, GHalf, fun x m => i_vpscatterdq m x);
  ("vpscatterqd/ax"%string, r_vpscatterqd_ax, GTwice, fun x m => i_vpscatterqd m x);
  ("vpscatterqq/ax"%string, r_vpscatterqq_ax, GSame, fun x m => i_vpscatterqq m x)
].
Lemma tab_scatter_ok : Forall (fun '(_, r, g, f) => gather_evex false r g f) tab_scatter.
Proof.
  unfold tab_scatter. do 8 (apply Forall_cons; [cbv beta iota; apply impl_gather2; [chk|reflexivity|discriminate|chk|reflexivity|reflexivity|reflexivity]|]). apply Forall_nil.
Qed.

Definition tab_fetch : list (string * vrow * Z * (Address -> E unit)) := [
  ("vgatherpf0dps/a"%string, r_vgatherpf0dps_a, 512, i_vgatherpf0dps);
  ("vgatherpf0qps/a"%string, r_vgatherpf0qps_a, 512, i_vgatherpf0qps);
  ("vgatherpf0dpd/a"%string, r_vgatherpf0dpd_a, 256, i_vgatherpf0dpd);
  ("vgatherpf0qpd/a"%string, r_vgatherpf0qpd_a, 512, i_vgatherpf0qpd);
  ("vgatherpf1dps/a"%string, r_vgatherpf1dps_a, 512, i_vgatherpf1dps);
  ("vgatherpf1qps/a"%string, r_vgatherpf1qps_a, 512, i_vgatherpf1qps);
  ("vgatherpf1dpd/a"%string, r_vgatherpf1dpd_a, 256, i_vgatherpf1dpd);
  ("vgatherpf1qpd/a"%string, r_vgatherpf1qpd_a, 512, i_vgatherpf1qpd);
  ("vscatterpf0dps/a"%string, r_vscatterpf0dps_a, 512, i_vscatterpf0dps);
  ("vscatterpf0qps/a"%string, r_vscatterpf0qps_a, 512, i_vscatterpf0qps);
  ("vscatterpf0dpd/a"%string, r_vscatterpf0dpd_a, 256, i_vscatterpf0dpd);
  ("vscatterpf0qpd/a"%string, r_vscatterpf0qpd_a, 512, i_vscatterpf0qpd);
  ("vscatterpf1dps/a"%string, r_vscatterpf1dps_a, 512, i_vscatterpf1dps);
  ("vscatterpf1qps/a"%string, r_vscatterpf1qps_a, 512, i_vscatterpf1qps);
  ("vscatterpf1dpd/a"%string, r_vscatterpf1dpd_a, 256, i_vscatterpf1dpd);
  ("vscatterpf1qpd/a"%string, r_vscatterpf1qpd_a, 512, i_vscatterpf1qpd)
].
Lemma tab_fetch_ok : Forall (fun '(_, r, n, f) => gather_fetch r n f) tab_fetch.
Proof.
  unfold tab_fetch. do 16 (apply Forall_cons; [cbv beta iota; refine (impl_fetch _ _ _ _ _ _ _ _ _ _ _ _ _ _); [chk|reflexivity|discriminate|chk|reflexivity|lia|reflexivity|reflexivity|auto]|]). apply Forall_nil.
Qed.

