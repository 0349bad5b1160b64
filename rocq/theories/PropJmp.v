(* Property theorems C53: jmp and call with a register or memory operand; and C44/C48 for mov with a 64-bit address and
   mov(reg, label) of the 32-bit build. *)
From Coq Require Import ZArith List Bool String Lia.
From Verif Require Encode32.
From Verif Require Import Base Types Emit EmitFacts Encode SpecX86 SpecAddr SpecFixed SpecIsa SpecInsn SpecLeg SpecExec SpecMach Wf ArgCheck LegShapes ProgRef JmpOp Moffs.
Import ListNotations.
Open Scope list_scope.
Open Scope Z_scope.

(* the processor goes to the 64-bit address in the register or in the memory at the address written *)
Theorem C53_jump : forall op ty env pos its u s rest ip x, go_op op -> ty <> T_FAR -> emits (jmp_op op ty) env pos its u ->
  fetch (mm x) ip 15 = render s its ++ rest -> mstep ip x = Some (addr64 (go_to op x), x).
Proof. exact jmp_step. Qed.
Print Assumptions C53_jump.
(* and call pushes the address behind the emitted bytes *)
Theorem C53_call : forall op ty env pos its u s rest ip x, go_op op -> ty <> T_FAR -> emits (call_op op ty) env pos its u ->
  fetch (mm x) ip 15 = render s its ++ rest ->
  mstep ip x = Some (addr64 (go_to op x), do_push 64 (addr64 (ip + Z.of_nat (List.length (render s its)))) x).
Proof. exact call_step. Qed.
Print Assumptions C53_call.
(* every 64-bit register is accepted *)
Theorem C53_register : forall i ty, 0 <= i < 32 -> ty <> T_FAR ->
  emits_bytes (jmp_op (OReg (Reg64 i)) ty) (branch_bytes 4 i) /\ emits_bytes (call_op (OReg (Reg64 i)) ty) (branch_bytes 2 i).
Proof. exact jmp_reg. Qed.
Print Assumptions C53_register.
(* T_FAR: FF /5 and FF /3 with a far pointer of 16, 32 or 64 bits in memory, and nothing else *)
Theorem C53_far : forall a s rest env pos its u, mem_ok a ->
  (emits (jmp_op (OMem a) T_FAR) env pos its u -> In (bit_ (a_op a)) far_sizes /\ lsays (far_row 5) [OMem a] 0 (render s its) rest)
  /\ (emits (call_op (OMem a) T_FAR) env pos its u -> In (bit_ (a_op a)) far_sizes /\ lsays (far_row 3) [OMem a] 0 (render s its) rest).
Proof. exact (fun a s rest env pos its u A => conj (far_says a 4 s rest env pos its u A (or_intror eq_refl)) (far_says a 2 s rest env pos its u A (or_introl eq_refl))). Qed.
Print Assumptions C53_far.
Theorem C53_far_only : forall op, isMEMb op (16 ||| i32e) = false -> rejects (jmp_op op T_FAR) ERR_NOT_SUPPORTED /\ rejects (call_op op T_FAR) ERR_NOT_SUPPORTED.
Proof. exact (fun op H => conj (far_only op 4 H) (far_only op 2 H)). Qed.
Print Assumptions C53_far_only.

Definition env_j := mkEnv false 0x400000 false false VexEncoding PreAVX10v2Encoding.
Definition bytes (m : E unit) : list Z := render (fun _ _ _ => 0) (fst (m env_j 0)).
Definition at_rax (w : Z) : Operand := OMem (address0 w false (mkRegExp (Reg64 0) noReg 0 0)).
(* jmp(ptr[rax]); call(r13); call(ptr[rax]); jmp(word/dword/qword[rax], T_FAR) *)
Example C53_instances :
  go_op (at_rax 0) /\ go_op (OReg (Reg64 13)) /\ bytes (jmp_op (at_rax 0) T_AUTO) = [0xFF; 0x20] /\ bytes (call_op (OReg (Reg64 13)) T_AUTO) = [0x41; 0xFF; 0xD5]
  /\ bytes (call_op (at_rax 0) T_AUTO) = [0xFF; 0x10]
  /\ map (fun w => bytes (jmp_op (at_rax w) T_FAR)) far_sizes = [[0x66; 0xFF; 0x28]; [0xFF; 0x28]; [0x48; 0xFF; 0x28]]
  /\ mem_ok (address0 64 false (mkRegExp (Reg64 0) noReg 0 0)) /\ emits (jmp_op (at_rax 64) T_FAR) env_j 0 [IDb 0x48; IDb 0xFF; IDb 0x28] tt.
Proof. split; [split; [apply mem_okb_ok; reflexivity|discriminate]|]. split; [split; [apply gprb_ok; reflexivity|now right]|]. repeat split; apply mem_okb_ok; reflexivity. Qed.

(* ---- what goes wrong ---- *)
(* C53: jmp(qword[...]) and call(qword[...]), the operand size that the instructions have, are always refused *)
Theorem C53_qword_refuted : forall a ty, is64bitDisp a = false -> getBit (a_op a) = 64 -> ty <> T_FAR ->
  rejects (jmp_op (OMem a) ty) ERR_BAD_MEM_SIZE /\ rejects (call_op (OMem a) ty) ERR_BAD_MEM_SIZE.
Proof. exact (fun a ty A B T => conj (jmp_qword a ty 4 A B T (or_intror eq_refl)) (jmp_qword a ty 2 A B T (or_introl eq_refl))). Qed.
Print Assumptions C53_qword_refuted.
Example C53_qword_instance : forall ty, ty <> T_FAR -> rejects (jmp_op (at_rax 64) ty) ERR_BAD_MEM_SIZE.
Proof. intros ty T. apply (C53_qword_refuted (address0 64 false (mkRegExp (Reg64 0) noReg 0 0)) ty eq_refl eq_refl T). Qed.
(* C53: jmp(dword[rax]), jmp(byte[rax]), jmp(eax) do not exist in 64-bit mode and are accepted: they are jmp(ptr[rax]) and jmp(rax) *)
Theorem C53_narrow_refuted :
  (forall i ty, 0 <= i < 32 -> ty <> T_FAR ->
    emits_bytes (jmp_op (OReg (Reg32 i)) ty) (branch_bytes 4 i) /\ emits_bytes (call_op (OReg (Reg32 i)) ty) (branch_bytes 2 i))
  /\ map (fun w => bytes (jmp_op (at_rax w) T_AUTO)) [0; 8; 32] = [[0xFF; 0x20]; [0xFF; 0x20]; [0xFF; 0x20]]
  /\ map (fun w => bytes (call_op (at_rax w) T_AUTO)) [0; 8; 32] = [[0xFF; 0x10]; [0xFF; 0x10]; [0xFF; 0x10]].
Proof. exact (conj jmp_reg32 (conj eq_refl eq_refl)). Qed.
Print Assumptions C53_narrow_refuted.

(* ---- C44: mov between al, ax, eax, rax and a 64-bit address: A0 .. A3 with the address of 8 bytes ---- *)
Theorem C44_mov_moffs : forall w d, In w [8; 16; 32; 64] -> 0 <= d < 2 ^ 64 ->
  (exists bs, emits_bytes (Encode.mov_oo (OReg (acc w)) (OMem (address64 d))) bs /\ moffs_insn w (if w =? 8 then 0xA0 else 0xA1) d bs)
  /\ (exists bs, emits_bytes (Encode.mov_oo (OMem (address64 d)) (OReg (acc w))) bs /\ moffs_insn w (if w =? 8 then 0xA2 else 0xA3) d bs).
Proof. exact moffs_says. Qed.
Print Assumptions C44_mov_moffs.
(* no other register has such an instruction *)
Theorem C44_mov_moffs_only : forall r d env pos, isREG r = true -> getIdx r <> 0 -> env_noexc env = false ->
  Encode.mov_oo (OReg r) (OMem (address64 d)) env pos = ([], Err ERR_CANT_USE_64BIT_DISP)
  /\ Encode.mov_oo (OMem (address64 d)) (OReg r) env pos = ([], Err ERR_CANT_USE_64BIT_DISP).
Proof. exact moffs_other. Qed.
Print Assumptions C44_mov_moffs_only.
Example C44_mov_moffs_instance :
  bytes (Encode.mov_oo (OReg (Reg16 0)) (OMem (address64 0x1122334455667788))) = [0x66; 0xA1; 0x88; 0x77; 0x66; 0x55; 0x44; 0x33; 0x22; 0x11]
  /\ bytes (Encode.mov_oo (OMem (address64 0x1122334455667788)) (OReg (Reg64 0))) = [0x48; 0xA3; 0x88; 0x77; 0x66; 0x55; 0x44; 0x33; 0x22; 0x11].
Proof. split; reflexivity. Qed.
(* ---- C48: mov(reg, label) of the 32-bit build is B8 + r and the address of the label ---- *)
Theorem C48_mov_label : forall i l env pos, 0 <= i < 8 -> Encode32.mov_label (Reg32 i) l env pos = ([IDb (0xB8 + i); IPutL l false 0], Ok tt).
Proof. exact mov_label32. Qed.
Print Assumptions C48_mov_label.
