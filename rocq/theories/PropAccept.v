(* Property theorems C56: the methods accept what their instructions have: operand sizes, register files, memory operands,
   vector lengths, the registers 16 .. 31 of EVEX, broadcast and rounding (SpecAccept).  C18, C20 and C44 say that what is
   emitted is right; here: it is emitted. *)
From Coq Require Import ZArith List Bool String Lia.
From Verif Require Import Base Types Emit EmitFacts Encode Mnemonic MnemonicAvx SpecX86 SpecAddr SpecIsa SpecInsn SpecLeg SpecMix Wf ArgCheck IsaRows VexTables VmovD KTile VexMore LegTables LegTables2 MixTables MixTables2 LegGpr2 SpecAccept Accept AcceptNot.
Import ListNotations.
Open Scope list_scope.
Open Scope Z_scope.

(* legacy encodings: every form of every row of the tables of C20 *)
Theorem C56_legacy : forall e, In e (legacy_table ++ gpr_table) -> complete (le_fun e) (le_rows e) (fun row w ops => not_listed (le_name e) row w ops = true).
Proof. exact legacy_complete. Qed.
Print Assumptions C56_legacy.
(* and of C44 *)
Theorem C56_mixed : forall e, In e (mix_table ++ mix2_table ++ wait_table) -> complete (me_fun e) (me_rows e) (fun row w ops => not_listed (me_name e) row w ops = true).
Proof. exact mix_complete. Qed.
Print Assumptions C56_mixed.
(* VEX and EVEX: every length, as register, memory, broadcast and with rounding, for one of the preferred encodings *)
Theorem C56_vector_partial : forall k e md b vl, nth_error (methods DefaultEncoding) k = Some e -> due e md b vl -> left_out (en_name e) md vl = false ->
  exists enc e', nth_error (methods enc) k = Some e' /\ takes e' md b vl.
Proof. exact methods_take. Qed.
Print Assumptions C56_vector_partial.
(* the forms left out.  vsm4key4, vsm4rnds4 exist for ymm and zmm (xbyak_mnemonic.h:1559-1560: no T_YMM) *)
Theorem C56_vsm4_refuted :
  (exists e, In e (methods DefaultEncoding) /\ en_name e = "vsm4key4/xxo"%string /\ due e AReg 1 256)
  /\ forall x y o env pos its u, emits (i_vsm4key4 x y o) env pos its u \/ emits (i_vsm4rnds4 x y o) env pos its u -> isXMM x = true.
Proof.
  split; [|exact vsm4_lengths]. exists (mkEntry "vsm4key4/xxo" [cX; cX; cO] (rro i_vsm4key4) r_vsm4key4_xxo VlRegs).
  split; [apply (nth_error_In _ (index "vsm4key4/xxo")); reflexivity|]. split; [reflexivity|]. eapply D_vex; [reflexivity| |]; cbn; auto.
Qed.
Print Assumptions C56_vsm4_refuted.
(* valignd, valignq have m32bcst, m64bcst (xbyak_mnemonic.h:2035-2036: no T_B32, T_B64) *)
Theorem C56_valign_broadcast_refuted :
  (exists e, In e (methods DefaultEncoding) /\ en_name e = "valignd/xxoi"%string /\ due e ABroadcast 17 512)
  /\ forall x y a imm env pos its u, vec_reg x -> vec_reg y -> wf_modrm a ->
    emits (i_valignd x y (OMem a) imm) env pos its u \/ emits (i_valignq x y (OMem a) imm) env pos its u -> a_broadcast a = false.
Proof.
  split; [|exact valign_broadcast]. exists (mkEntry "valignd/xxoi" [cX; cX; cO] (rroi i_valignd) r_valignd_xxoi VlRegs).
  split; [apply (nth_error_In _ (index "valignd/xxoi")); reflexivity|]. split; [reflexivity|]. eapply D_broadcast; try reflexivity; cbn; auto.
Qed.
Print Assumptions C56_valign_broadcast_refuted.
(* vfixupimmss, vfixupimmsd have {sae} (xbyak_mnemonic.h:2309-2310: T_SAE_Z, which holds for zmm only) *)
Theorem C56_fixupimm_sae_refuted :
  (exists e, In e (methods DefaultEncoding) /\ en_name e = "vfixupimmss/xxoi"%string /\ due e (ARounded 5) 17 0)
  /\ forall x y r imm env pos its u, vec_reg r -> kind_ r = XMM -> rounding_ x = 0 -> rounding_ y = 0 ->
    emits (i_vfixupimmss x y (OReg r) imm) env pos its u \/ emits (i_vfixupimmsd x y (OReg r) imm) env pos its u -> rounding_ r <> 5.
Proof.
  split; [|exact fixupimm_sae]. exists (mkEntry "vfixupimmss/xxoi" [cX; cX; cO] (rroi i_vfixupimmss) r_vfixupimmss_xxoi VlRegs).
  split; [apply (nth_error_In _ (index "vfixupimmss/xxoi")); reflexivity|]. split; [reflexivity|]. eapply D_sae; reflexivity.
Qed.
Print Assumptions C56_fixupimm_sae_refuted.
(* vcvttps2ibs and its kin have {sae} (xbyak_mnemonic.h:2258-2261: T_ER_Y, T_ER_Z in place of T_SAE_Y, T_SAE_Z) *)
Theorem C56_cvtt_sae_refuted :
  (exists e, In e (methods DefaultEncoding) /\ en_name e = "vcvttps2ibs/xo"%string /\ due e (ARounded 5) 17 0)
  /\ forall x r env pos its u, vec_reg r -> rounding_ x = 0 ->
    emits (i_vcvttps2ibs x (OReg r)) env pos its u \/ emits (i_vcvttps2iubs x (OReg r)) env pos its u
    \/ emits (i_vcvttph2ibs x (OReg r)) env pos its u \/ emits (i_vcvttph2iubs x (OReg r)) env pos its u -> rounding_ r <> 5.
Proof.
  split; [|exact cvtt_sae]. exists (mkEntry "vcvttps2ibs/xo" [cX; cO] (ro i_vcvttps2ibs) r_vcvttps2ibs_xo VlRegs).
  split; [apply (nth_error_In _ (index "vcvttps2ibs/xo")); reflexivity|]. split; [reflexivity|]. eapply D_sae; reflexivity.
Qed.
Print Assumptions C56_cvtt_sae_refuted.

(* ---- instances ---- *)
(* 508 legacy methods, 985 vector methods; xadd(qword [r12 - 0x12345], r13); vaddps has all kinds of operands *)
Example C56_sizes : (List.length (legacy_table ++ gpr_table), List.length (mix_table ++ mix2_table ++ wait_table), List.length (methods DefaultEncoding)) = (342, 166, 985)%nat.
Proof. reflexivity. Qed.
Example C56_hypotheses :
  (exists e row, In e (legacy_table ++ gpr_table) /\ In row (le_rows e) /\ In 64 (widths (l_osz row)) /\ le_name e = "xadd"%string
     /\ In [memory false 12 64; OReg (Reg64 13)] (prod (as_rows 12 64 (l_ops row))) /\ le_fun e [memory false 12 64; OReg (Reg64 13)] 1 <> None)
  /\ exists e, In e (methods DefaultEncoding) /\ en_name e = "vaddps/xoo"%string
     /\ dues e = [(AReg, 1, 128); (AReg, 1, 256); (AReg, 12, 128); (AReg, 12, 256); (AMem, 1, 128); (AMem, 1, 256); (AMem, 12, 128); (AMem, 12, 256);
                  (AReg, 17, 128); (AReg, 17, 256); (AReg, 17, 512); (AReg, 28, 128); (AReg, 28, 256); (AReg, 28, 512);
                  (AMem, 17, 128); (AMem, 17, 256); (AMem, 17, 512); (AMem, 28, 128); (AMem, 28, 256); (AMem, 28, 512);
                  (ABroadcast, 17, 128); (ABroadcast, 17, 256); (ABroadcast, 17, 512); (ABroadcast, 28, 128); (ABroadcast, 28, 256); (ABroadcast, 28, 512);
                  (ARounded 1, 17, 0); (ARounded 2, 17, 0); (ARounded 3, 17, 0); (ARounded 4, 17, 0)].
Proof.
  split.
  - exists e_xadd, (LegGpr2.orrow SpecIsa.NP 1 0xC0 Sv Sv OsB I_none). split.
    { apply in_or_app. right. cbv delta [gpr_table]. repeat (first [left; reflexivity|right]). }
    repeat split; try (cbn; tauto). discriminate.
  - exists (mkEntry "vaddps/xoo" [cX; cX; cO] (roo i_vaddps) r_vaddps_xoo VlRegs). split; [apply (nth_error_In _ (index "vaddps/xoo")); reflexivity|]. split; reflexivity.
Qed.
