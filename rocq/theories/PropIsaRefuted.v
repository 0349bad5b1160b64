(* Calls that violate C18, C19, C33, C39: the methods left out of the tables of VexTables.v, and operands
   excluded by the hypotheses of the theorems of PropIsa.v.  All witnesses are accepted calls. *)
From Coq Require Import ZArith List Bool String Lia.
From Verif Require Import Base Types Emit Encode SpecX86 SpecAddr SpecIsa SpecInsn Wf EmitFacts IsaRows Mnemonic MnemonicAvx EncSel.
Import ListNotations.
Open Scope Z_scope.

Definition env1 := mkEnv false 0x400000 false false VexEncoding PreAVX10v2Encoding.
Definition bytes (its : list item) : list Z := render (fun _ _ _ => 0) its.
Definition at_ (b : Reg) (d : Z) : Address := address0 0 false (mkRegExp b noReg 0 d).
Definition at_v (b i : Reg) : Address := address0 0 false (mkRegExp b i 1 0).
Ltac witness := eexists; split; [split; reflexivity|].

(* xbyak_mnemonic.h:1435: vpermq(ymm, ymm, op) emits VEX.256.66.0F38.W0 36, that is vpermd *)
Theorem C39_vpermq_is_vpermd_refuted : exists its,
  emits (i_vpermq_yyo (Ymm 0) (Ymm 1) (OReg (Ymm 2))) env1 0 its tt /\ emits (i_vpermd (Ymm 0) (Ymm 1) (OReg (Ymm 2))) env1 0 its tt.
Proof. eexists; split; split; reflexivity. Qed.
Print Assumptions C39_vpermq_is_vpermd_refuted.
(* xbyak_mnemonic.h:1341, 1343: the memory check of vmovhps .. vmovlpd does not look at the two-operand
   form: vmovhps xmm1, xmm2 emits vmovlhps xmm1, xmm1, xmm2 *)
Theorem C39_vmovhps_is_vmovlhps_refuted : exists its,
  emits (i_vmovhps_xoo (Xmm 1) (OReg (Xmm 2)) noOp) env1 0 its tt /\ emits (i_vmovlhps (Xmm 1) (Xmm 1) (OReg (Xmm 2))) env1 0 its tt.
Proof. eexists; split; split; reflexivity. Qed.
Print Assumptions C39_vmovhps_is_vmovlhps_refuted.

(* xbyak_mnemonic.h:2427-2428: vp2intersectd has EVEX forms only; low registers give a VEX instruction *)
Theorem C18_vp2intersect_vex_refuted : exists its,
  emits (i_vp2intersectd (Opmask 2) (Xmm 1) (OReg (Xmm 2))) env1 0 its tt /\ starts false (bytes its).
Proof. witness. eexists; eexists; split; [left; reflexivity|cbn; auto]. Qed.
Print Assumptions C18_vp2intersect_vex_refuted.
(* opAVX_X_X_XM (xbyak.h:2548) does not check the kind of its last operand: vaddps(xmm0, xmm1, ymm2) is
   vaddps xmm0, xmm1, xmm2 *)
Theorem C18_operand_kind_refuted : exists its,
  emits (i_vaddps (Xmm 0) (OReg (Xmm 1)) (OReg (Ymm 2))) env1 0 its tt /\ emits (i_vaddps (Xmm 0) (OReg (Xmm 1)) (OReg (Xmm 2))) env1 0 its tt.
Proof. eexists; split; split; reflexivity. Qed.
Print Assumptions C18_operand_kind_refuted.
(* vblendvps (xbyak_mnemonic.h:1070; imm8 = x4.getIdx() << 4): with x4 = xmm16 the value is NONE and the
   immediate byte is missing; xmm17 becomes xmm1 *)
Theorem C18_is4_register_refuted : exists its its',
  emits (i_vblendvps_xxox (Xmm 0) (Xmm 1) (OReg (Xmm 2)) (Xmm 16)) env1 0 its tt /\ bytes its = [0xC4; 0xE3; 0x71; 0x4A; 0xC2]
  /\ emits (i_vblendvps_xxox (Xmm 0) (Xmm 1) (OReg (Xmm 2)) (Xmm 17)) env1 0 its' tt
  /\ emits (i_vblendvps_xxox (Xmm 0) (Xmm 1) (OReg (Xmm 2)) (Xmm 1)) env1 0 its' tt.
Proof. eexists; eexists. split; [split; reflexivity|]. split; [reflexivity|]. split; split; reflexivity. Qed.
Print Assumptions C18_is4_register_refuted.

(* the compressed displacement of vcvtsd2si (T_N4, xbyak_mnemonic.h:1222) and vcvtss2si (T_N8): the
   architecture scales disp8 by the operand size, 8 and 4; [r16 + 8] becomes [r16 + 16] and [r16 + 4] *)
Definition disp_read (n8 : Z) (bs : list Z) : option Z := match decode false n8 bs with Some (_, _, RMem m, _) => Some (m_disp m) | _ => None end.
Theorem C19_vcvtsd2si_disp8_refuted : exists its its',
  emits (i_vcvtsd2si_do (Reg32 0) (OMem (at_ (Reg64 16) 8))) env1 0 its tt /\ disp_read 8 (bytes its) = Some 16
  /\ emits (i_vcvtss2si_do (Reg32 0) (OMem (at_ (Reg64 16) 8))) env1 0 its' tt /\ disp_read 4 (bytes its') = Some 4.
Proof. eexists; eexists. split; [split; reflexivity|]. split; [reflexivity|]. split; [split; reflexivity|reflexivity]. Qed.
Print Assumptions C19_vcvtsd2si_disp8_refuted.
(* vcvthf82ph (half vector, xbyak_mnemonic.h:2197) and vcvtne2ph2bf8 (full vector, 2198) use N = 1 *)
Theorem C19_fp8_disp8_refuted : exists its its',
  emits (i_vcvthf82ph (Zmm 0) (OMem (at_ (Reg64 1) 32))) env1 0 its tt /\ disp_read 32 (bytes its) = Some 1024
  /\ emits (i_vcvtne2ph2bf8 (Zmm 0) (Zmm 1) (OMem (at_ (Reg64 1) 64))) env1 0 its' tt /\ disp_read 64 (bytes its') = Some 4096.
Proof. eexists; eexists. split; [split; reflexivity|]. split; [reflexivity|]. split; [split; reflexivity|reflexivity]. Qed.
Print Assumptions C19_fp8_disp8_refuted.
(* vsm3msg1 has a VEX form only (xbyak_mnemonic.h:1556); xmm16 .. xmm31 give an EVEX instruction *)
Theorem C19_vsm3msg1_evex_refuted : exists its,
  emits (i_vsm3msg1 (Xmm 17) (Xmm 1) (OReg (Xmm 2))) env1 0 its tt /\ starts true (bytes its).
Proof. witness. eexists; eexists; split; [left; reflexivity|cbn; auto]. Qed.
Print Assumptions C19_vsm3msg1_evex_refuted.
(* the AVX10.2 vmpsadbw (xbyak_mnemonic.h:2423) has no broadcast *)
Theorem C19_vmpsadbw_broadcast_refuted : exists its h reg m r,
  emits (i_vmpsadbw_xxoip (Zmm 0) (Zmm 1) (OMem (address0 32 true (mkRegExp (Reg64 0) noReg 0 0))) 3 AVX10v2Encoding) env1 0 its tt
  /\ decode false 4 (bytes its) = Some (h, reg, RMem m, r) /\ h_b h = true.
Proof. do 5 eexists. split; [split; reflexivity|]. split; reflexivity. Qed.
Print Assumptions C19_vmpsadbw_broadcast_refuted.
(* integer instructions accept a rounding mode: vpshldd zmm0, zmm1, zmm2{sae}, 3 sets EVEX.b *)
Theorem C19_rounding_accepted_refuted : exists its h reg rm r,
  emits (i_vpshldd (Zmm 0) (Zmm 1) (OReg (set_rounding (Zmm 2) 5)) 3) env1 0 its tt
  /\ decode false 4 (bytes its) = Some (h, reg, rm, r) /\ h_b h = true.
Proof. do 5 eexists. split; [split; reflexivity|]. split; reflexivity. Qed.
Print Assumptions C19_rounding_accepted_refuted.
(* vcvtpd2dq(xmm1, zword [rax]) emits the 128-bit form *)
Theorem C18_source_size_refuted : exists its h reg m r,
  emits (i_vcvtpd2dq (Xmm 1) (OMem (address0 512 false (mkRegExp (Reg64 0) noReg 0 0)))) env1 0 its tt
  /\ decode false 1 (bytes its) = Some (h, reg, RMem m, r) /\ h_L h = 0.
Proof. do 5 eexists. split; [split; reflexivity|]. split; reflexivity. Qed.
Print Assumptions C18_source_size_refuted.

(* C33: the index xmm17 of an AVX2 gather is encoded as xmm1 (VEX has no bit for it), also when xmm1 is
   the destination *)
Definition index_read (bs : list Z) : option (Z * Z) :=
  match decode true 1 bs with Some (_, reg, RMem m, _) => match m_index m with Some i => Some (reg, i) | None => None end | _ => None end.
Theorem C33_avx2_index_refuted : exists its,
  emits (i_vgatherdps_xax (Xmm 1) (at_v (Reg64 0) (Xmm 17)) (Xmm 3)) env1 0 its tt /\ index_read (bytes its) = Some (1, 1).
Proof. witness. reflexivity. Qed.
Print Assumptions C33_avx2_index_refuted.
(* vgatherqps(zmm2, [rax + ymm1], zmm3) is accepted and emitted as vgatherqps xmm2, [rax + ymm1], xmm3 *)
Theorem C33_avx2_length_refuted : exists its,
  emits (i_vgatherqps_xax (Zmm 2) (at_v (Reg64 0) (Ymm 1)) (Zmm 3)) env1 0 its tt
  /\ emits (i_vgatherqps_xax (Xmm 2) (at_v (Reg64 0) (Ymm 1)) (Xmm 3)) env1 0 its tt.
Proof. eexists; split; split; reflexivity. Qed.
Print Assumptions C33_avx2_length_refuted.
(* a gather prefetch without a mask is accepted: EVEX.aaa = 0 is #UD *)
Theorem C33_prefetch_mask_refuted : exists its h reg m r,
  emits (i_vgatherpf0dps (at_v (Reg64 0) (Zmm 1))) env1 0 its tt
  /\ decode true 4 (bytes its) = Some (h, reg, RMem m, r) /\ h_aaa h = 0.
Proof. do 5 eexists. split; [split; reflexivity|]. split; reflexivity. Qed.
Print Assumptions C33_prefetch_mask_refuted.
(* xbyak_mnemonic.h:1931: unlike tileloadd (opAMX, xbyak.h:2784), tilestored does not check its address:
   [rax] is accepted and encoded without the SIB byte the instruction must have *)
Theorem C18_tilestored_sib_refuted : exists its h reg m r,
  emits (i_tilestored (at_ (Reg64 0) 0) (Tmm 1)) env1 0 its tt /\ bytes its = [0xC4; 0xE2; 0x7A; 0x4B; 0x08]
  /\ decode false 1 (bytes its) = Some (h, reg, RMem m, r) /\ m_index m = None
  /\ i_tileloadd (Tmm 1) (at_ (Reg64 0) 0) env1 0 = ([], Err ERR_NOT_SUPPORTED).
Proof. do 5 eexists. split; [split; reflexivity|]. split; [reflexivity|]. split; [reflexivity|]. split; reflexivity. Qed.
Print Assumptions C18_tilestored_sib_refuted.
