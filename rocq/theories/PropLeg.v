(* Property theorems C17, C20: the legacy-encoded methods of xbyak_mnemonic.h against the instruction rows
   of LegTables.v.  [lsays], [limplements] and the conditions on the arguments are in SpecLeg.v. *)
From Coq Require Import ZArith List Bool String Lia.
From Verif Require Import Base Types Emit Encode SpecX86 SpecAddr SpecIsa SpecInsn SpecLeg Wf EmitFacts ArgCheck Mnemonic LegShapes LegGpr LegGpr2 LegGpr3 LegTables LegTables2.
Import ListNotations.
Open Scope Z_scope.

(* C17, C20: whatever a method of the table emits is the instruction of its row: mandatory prefix, opcode map,
   opcode, register fields, effective address, operand size, immediate *)
Theorem C20_instruction_table : Forall limplements legacy_table.
Proof. exact legacy_table_ok. Qed.
Print Assumptions C20_instruction_table.
(* the same for general registers: operand sizes 8/16/32/64, ah..bh against spl..dil, sign-extended immediates *)
Theorem C20_general_register_table : Forall limplements gpr_table.
Proof. exact gpr_table_ok. Qed.
Print Assumptions C20_general_register_table.
Definition leg_env := mkEnv false 0x400000 false false VexEncoding PreAVX10v2Encoding.
(* shufpd xmm9, [r20 + 0x40], 1 *)
Example C20_table_hypotheses :
  let m := OMem (address0 0 false (mkRegExp (Reg64 20) noReg 0 0x40)) in
  let ops := [OReg (Xmm 9); m] in
  In e_shufpd legacy_table /\ Forall2 larg_ok (le_sig e_shufpd) ops /\ Forall lbare ops /\ high_ok ops
  /\ Forall (fun row => imm_in (l_imm row) 1) (le_rows e_shufpd)
  /\ exists act its, le_fun e_shufpd ops 1 = Some act /\ emits act leg_env 0 its tt
     /\ render (fun _ _ _ => 0) its = [0x66; 0xD5; 0x94; 0xC6; 0x4C; 0x24; 0x40; 0x01].
Proof.
  cbv zeta. split; [|split; [|split; [|split; [|split]]]].
  - cbv delta [legacy_table]. repeat (first [left; reflexivity|right]).
  - constructor; [apply vec_regb_ok; reflexivity|]. constructor; [|constructor]. split; [apply mem_okb_ok; reflexivity|discriminate].
  - repeat constructor.
  - intros X. inversion X as [? ? Q|? ? Q]; subst; [destruct Q as [Q _]; discriminate Q|]. inversion Q as [? ? Q2|? ? Q2]; subst; [destruct Q2|inversion Q2].
  - repeat constructor; cbn; lia.
  - eexists; eexists; split; [reflexivity|]. split; [split; reflexivity|reflexivity].
Qed.
(* cmovnle r12w, [rbx + rcx * 2]  and  or byte [rsp], -2 *)
Example C20_gpr_hypotheses :
  let m := OMem (address0 0 false (mkRegExp (Reg64 3) (Reg64 1) 2 0)) in
  let ops := [OReg (Reg16 12); m] in
  In e_cmovnle_ro gpr_table /\ Forall2 larg_ok (le_sig e_cmovnle_ro) ops /\ Forall lbare ops /\ high_ok ops
  /\ exists act its, le_fun e_cmovnle_ro ops 0 = Some act /\ emits act leg_env 0 its tt
     /\ render (fun _ _ _ => 0) its = [0x66; 0x44; 0x0F; 0x4F; 0x24; 0x4B].
Proof.
  cbv zeta. split; [|split; [|split; [|split]]].
  - cbv delta [gpr_table]. repeat (first [left; reflexivity|right]).
  - constructor; [|constructor; [apply mem_okb_ok; reflexivity|constructor]]. split; [|discriminate]. split; [reflexivity|]. left. split; [right; left; reflexivity|cbn; lia].
  - repeat constructor.
  - intros X. inversion X as [? ? Q|? ? Q]; subst; [destruct Q as [Q _]; discriminate Q|]. inversion Q as [? ? Q2|? ? Q2]; subst; [destruct Q2|inversion Q2].
  - eexists; eexists; split; [reflexivity|]. split; [split; reflexivity|reflexivity].
Qed.
