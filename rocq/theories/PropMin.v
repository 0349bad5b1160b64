(* Property theorems C32 for the methods without an encoding parameter: the shorter VEX encoding is used unless EVEX is needed.
   [minimal], [evex_reason], [needs] are in MinFacts.v; vex_table, vex_table_norc are the tables of C18 and C19. *)
From Coq Require Import ZArith List Bool String Lia.
From Verif Require Import Base Types Emit Encode SpecX86 SpecAddr SpecIsa SpecInsn IsaRows Wf EmitFacts EncSel Mnemonic MnemonicAvx VexTables ArgCheck MinFacts MinTables.
Import ListNotations.
Open Scope Z_scope.

Theorem C32_evex_only_for_a_reason : forall enc,
  Forall (fun e => skipped (ifma ++ with_parameter) e = true \/ minimal e) (vex_table enc ++ vex_table_norc enc).
Proof. exact min_table_ok. Qed.
Print Assumptions C32_evex_only_for_a_reason.
Example C32_reason_size : let t := (vex_table DefaultEncoding ++ vex_table_norc DefaultEncoding)%list in
  let has_vex e := match r_vex (en_row e) with Some _ => true | None => false end in
  List.length (filter has_vex t) = 455%nat /\ List.length (filter (fun e => has_vex e && skipped (ifma ++ with_parameter) e) t) = 19%nat.
Proof. vm_compute. split; reflexivity. Qed.
(* vaddps ymm1, ymm2, [rax]: VEX, for no operand needs EVEX; vaddps ymm1, ymm2, [r16]: EVEX *)
Example C32_reason_example :
  let a r := OMem (address0 0 false (mkRegExp r noReg 0 0)) in
  let e := mkEntry "vaddps/xoo" [cX; cX; cO] (roo i_vaddps) r_vaddps_xoo VlRegs in
  r_vex (en_row e) <> None /\ Forall2 arg_ok (en_sig e) [OReg (Ymm 1); OReg (Ymm 2); a (Reg64 0)]
  /\ existsb needs [OReg (Ymm 1); OReg (Ymm 2); a (Reg64 0)] = false /\ existsb needs [OReg (Ymm 1); OReg (Ymm 2); a (Reg64 16)] = true.
Proof. cbv zeta. split; [discriminate|]. split; [apply args_okb_ok; reflexivity|]. split; reflexivity. Qed.
(* xbyak_mnemonic.h:2504-2505: vpmadd52luq and vpmadd52huq have VEX forms (AVX-IFMA) that are never used *)
Definition env0 := mkEnv false 0x400000 false false VexEncoding PreAVX10v2Encoding.
Theorem C32_vpmadd52_refuted : exists its, emits (i_vpmadd52luq (Xmm 0) (Xmm 1) (OReg (Xmm 2))) env0 0 its tt
  /\ starts true (render (fun _ _ _ => 0) its) /\ r_vex r_vpmadd52luq_xxo <> None
  /\ ~ evex_reason r_vpmadd52luq_xxo 128 [OReg (Xmm 0); OReg (Xmm 1); OReg (Xmm 2)].
Proof.
  eexists. split; [split; reflexivity|]. split; [eexists; eexists; split; [left; reflexivity|reflexivity]|]. split; [discriminate|].
  intros [H|[H|[_ [a [H|[H|[H|[]]]]]]]]; discriminate.
Qed.
Print Assumptions C32_vpmadd52_refuted.
