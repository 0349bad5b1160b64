(* Property theorems C22, C23, C26: what the processor does with the bytes of mov, add .. cmp, push and pop, according to the
   execution of SpecExec. *)
From Coq Require Import ZArith List Bool Lia.
From Verif Require Import Base Types Emit EmitFacts Encode Mnemonic SpecX86 SpecAddr SpecLeg SpecCond SpecExec Wf LegGpr3 LegGpr4 ExecFacts ExecProofs ArgCheck.
Import ListNotations.
Open Scope Z_scope.

(* mov reg, imm: afterwards the register reads imm modulo 2^width, and nothing else but the rest of that register changes
   (C22_mov); for 64-bit registers all 64 bits of imm, for 32-bit ones the upper half is cleared *)
Theorem C22_mov_register : forall r imm env pos its u s rest rip m, gpr r -> bare r -> emits (mov_oi (OReg r) imm) env pos its u ->
  exists m', exec rip (render s its ++ rest) m = Some (rest, m') /\ mm m' = mm m /\ fl m' = fl m
   /\ read (bit_ r) (loc_of (OReg r) m') m' = imm mod 2 ^ bit_ r
   /\ (bit_ r = 64 \/ bit_ r = 32 -> rg m' (regno r) = imm mod 2 ^ bit_ r).
Proof. exact mov_reg_value. Qed.
Print Assumptions C22_mov_register.
(* mov op, imm for registers and memory operands: op receives imm modulo 2^width *)
Theorem C22_mov : forall op imm env pos its u s rest rip m, imm_op op -> emits (mov_oi op imm) env pos its u ->
  exec rip (render s its ++ rest) m = Some (rest, e_mov (bit_ (ob op)) op (imm mod 2 ^ bit_ (ob op)) m).
Proof. exact mov_exec. Qed.
Print Assumptions C22_mov.
(* for 64-bit registers the length is that of the shortest form that can load the value *)
Theorem C22_mov_length : forall s r imm env pos its u, gpr r -> bit_ r = 64 -> emits (mov_oi (OReg r) imm) env pos its u ->
  Z.of_nat (List.length (render s its)) =
  if fits32u imm then 5 + (if 16 <=? regno r then 2 else if 8 <=? regno r then 1 else 0)
  else (if fits32s imm then 7 else 10) + (if 16 <=? regno r then 1 else 0).
Proof. exact mov64_len. Qed.
Print Assumptions C22_mov_length.
(* every value is accepted for every general register *)
Theorem C22_mov_accepts : forall r imm env pos, env_noexc env = false -> gpr r -> NF_ r = false -> ZU_ r = false ->
  succeeds (mov_oi (OReg r) imm) env pos.
Proof. exact mov_imm_accepts. Qed.
Print Assumptions C22_mov_accepts.
(* mov between registers and memory *)
Theorem C22_mov_operands : forall o1 o2 env pos its u s rest rip m, two_ops o1 o2 -> lbare o1 -> lbare o2 -> emits (mov_oo o1 o2) env pos its u ->
  exists r, (o1 = OReg r \/ o2 = OReg r) /\ exec rip (render s its ++ rest) m = Some (rest, e_mov2 (bit_ r) o1 o2 m).
Proof. exact mov2_exec. Qed.
Print Assumptions C22_mov_operands.

Definition env_x := mkEnv false 0x400000 false false VexEncoding PreAVX10v2Encoding.
Definition bytes (m : E unit) : list Z := render (fun _ _ _ => 0) (fst (m env_x 0)).
Definition m_x := mkSt (fun r => 0x1122334455667788 + r) (fun a => a mod 256) (mkFlags true false false true false) (fun _ => false) (mkV (fun _ => 0) (fun _ => 0) (fun _ _ _ _ => 0)).
(* mov r17, 0xffffffff80000000 ; mov ch, 0x1FE ; mov dword [rax + rbx * 4], -2 *)
Example C22_instances :
  gpr (Reg64 17) /\ bare (Reg64 17) /\ bytes (mov_oi (OReg (Reg64 17)) 0xffffffff80000000) = [0xD5; 0x18; 0xC7; 0xC1; 0; 0; 0; 0x80]
  /\ option_map (fun p => rg (snd p) 17) (exec 0 (bytes (mov_oi (OReg (Reg64 17)) 0xffffffff80000000)) m_x) = Some 0xffffffff80000000
  /\ option_map (fun p => rg (snd p) 1) (exec 0 (bytes (mov_oi (OReg (Reg8 5)) 0x1FE)) m_x) = Some 0x112233445566FE89
  /\ imm_op (OMem (address0 32 false (mkRegExp (Reg64 0) (Reg64 3) 4 0)))
  /\ bytes (mov_oi (OMem (address0 32 false (mkRegExp (Reg64 0) (Reg64 3) 4 0))) (-2)) = [0xC7; 0x04; 0x98; 0xFE; 0xFF; 0xFF; 0xFF].
Proof.
  split; [apply gprb_ok; reflexivity|]. split; [repeat split|]. split; [reflexivity|]. split; [reflexivity|]. split; [reflexivity|].
  split; [|reflexivity]. split; [split; [apply mem_okb_ok; reflexivity|cbn; tauto]|split; reflexivity].
Qed.

(* add .. cmp op, imm: op is combined with imm, taken as a signed 32-bit number, modulo the operand width *)
Theorem C23_alu_immediate : forall d f g op imm env pos its u s rest rip m, In (d, f, g) alu_methods -> imm_op op -> emits (f op imm) env pos its u ->
  exec rip (render s its ++ rest) m = Some (rest, e_alu d (bit_ (ob op)) op (arg32 imm mod 2 ^ bit_ (ob op)) m).
Proof. exact alu_exec. Qed.
Print Assumptions C23_alu_immediate.
(* the sign-extended byte form (opcode 83) is used exactly when the operand is wider than a byte and imm fits *)
Theorem C23_alu_form : forall d f g op imm env pos its u s rest, In (d, f, g) alu_methods -> imm_op op -> emits (f op imm) env pos its u ->
  0 <= d < 8 /\ Exists (fun row => lsays row [op] imm (render s its) rest) (alu_pick d (bit_ (ob op)) imm).
Proof. exact alu_methods_form. Qed.
Print Assumptions C23_alu_form.
(* add .. cmp of registers and memory *)
Theorem C23_alu_operands : forall d f g o1 o2 env pos its u s rest rip m, In (d, f, g) alu_methods -> two_ops o1 o2 -> emits (g o1 o2) env pos its u ->
  exists r, (o1 = OReg r \/ o2 = OReg r) /\ exec rip (render s its ++ rest) m = Some (rest, e_alu2 d (bit_ r) o1 o2 m).
Proof. exact alu2_exec. Qed.
Print Assumptions C23_alu_operands.
(* add rax, -128 ; add rax, 128 ; sub r9w, 0x8000 ; cmp byte [rsp], 0xFF ; sbb dh, bl *)
Example C23_instances :
  bytes (i_add_oi (OReg (Reg64 0)) (-128)) = [0x48; 0x83; 0xC0; 0x80]
  /\ bytes (i_add_oi (OReg (Reg64 0)) 128) = [0x48; 0x05; 0x80; 0; 0; 0]
  /\ bytes (i_sub_oi (OReg (Reg16 9)) 0x8000) = [0x66; 0x41; 0x81; 0xE9; 0; 0x80]
  /\ bytes (i_cmp_oi (OMem (address0 8 false (mkRegExp (Reg64 4) noReg 0 0))) 0xFF) = [0x80; 0x3C; 0x24; 0xFF]
  /\ imm_op (OReg (Reg16 9)) /\ In (5, i_sub_oi, i_sub_oo) alu_methods
  /\ two_ops (OReg (Reg8 6)) (OReg (Reg8 3)) /\ bytes (i_sbb_oo (OReg (Reg8 6)) (OReg (Reg8 3))) = [0x18; 0xDE]
  /\ option_map (fun p => (rg (snd p) 2, cf (snd p))) (exec 0 [0x18; 0xDE] m_x) = Some (0x112233445566EB8A, true).
Proof.
  do 4 (split; [reflexivity|]). split; [split; [left; apply gprb_ok; reflexivity|repeat split]|].
  split; [unfold alu_methods; do 5 right; left; reflexivity|]. split; [|split; reflexivity].
  split; [left; apply gprb_ok; reflexivity|]. split; [apply gprb_ok; reflexivity|].
  intros _. constructor; [discriminate|]. constructor; [discriminate|constructor].
Qed.

(* push and pop of memory, of 64-bit registers and of registers numbered below 16: the operand, with its size *)
Theorem C26_push : forall op env pos its u s rest rip m, stack_op op -> emits (push_op op) env pos its u ->
  exec rip (render s its ++ rest) m = Some (rest, e_push (bit_ (ob op)) op m).
Proof. exact push_exec. Qed.
Print Assumptions C26_push.
Theorem C26_pop : forall op env pos its u s rest rip m, stack_op op -> emits (pop_op op) env pos its u ->
  exec rip (render s its ++ rest) m = Some (rest, e_pop (bit_ (ob op)) op m).
Proof. exact pop_exec. Qed.
Print Assumptions C26_pop.
(* push imm: all 2^32 values, sign-extended to 64 bits *)
Theorem C26_push_immediate : forall rip imm env pos its u s m rest, emits (push_imm imm) env pos its u ->
  exec rip (render s its ++ rest) m = Some (rest, do_push 64 (arg32 imm) m).
Proof. exact push_imm_exec. Qed.
Print Assumptions C26_push_immediate.
(* push byte/word/dword, imm *)
Theorem C26_push_sized_immediate : forall a imm env pos its u s rest rip m, emits (push_af a (w32 imm)) env pos its u ->
  exec rip (render s its ++ rest) m =
  Some (rest, if a =? 8 then do_push 64 (signed 8 (imm mod 256)) m else if a =? 16 then do_push 16 (signed 16 (imm mod 2 ^ 16)) m
              else do_push 64 (arg32 imm) m).
Proof. exact push_af_exec. Qed.
Print Assumptions C26_push_sized_immediate.
(* push r9w ; pop qword [rsp + 8] ; push r30 ; push(-129) *)
Example C26_instances :
  stack_op (OReg (Reg16 9)) /\ bytes (push_op (OReg (Reg16 9))) = [0x66; 0x41; 0x51]
  /\ stack_op (OMem (address0 64 false (mkRegExp (Reg64 4) noReg 0 8)))
  /\ bytes (pop_op (OMem (address0 64 false (mkRegExp (Reg64 4) noReg 0 8)))) = [0x8F; 0x44; 0x24; 0x08]
  /\ stack_op (OReg (Reg64 30)) /\ bytes (push_op (OReg (Reg64 30))) = [0xD5; 0x11; 0x56]
  /\ bytes (push_imm (-129)) = [0x68; 0x7F; 0xFF; 0xFF; 0xFF].
Proof.
  split; [split; [left; apply gprb_ok; reflexivity|right; reflexivity]|].
  split; [reflexivity|]. split; [apply mem_okb_ok; reflexivity|]. split; [reflexivity|].
  split; [split; [left; apply gprb_ok; reflexivity|left; reflexivity]|]. split; reflexivity.
Qed.
(* Refuted for the 8-, 16- and 32-bit registers 16 .. 31: they are accepted and encoded as the 64-bit register,
   so push r20w pushes 8 bytes instead of 2, and push r20d, push r20b are accepted although push eax, push al are not *)
Theorem C26_push_small_extended_refuted :
  bytes (push_op (OReg (Reg16 20))) = bytes (push_op (OReg (Reg64 20)))
  /\ bytes (push_op (OReg (Reg32 20))) = bytes (push_op (OReg (Reg64 20)))
  /\ bytes (push_op (OReg (Reg8 20))) = bytes (push_op (OReg (Reg64 20)))
  /\ snd (push_op (OReg (Reg16 20)) env_x 0) = Ok tt
  /\ (forall rip m, exec rip (bytes (push_op (OReg (Reg16 20)))) m <> Some ([], e_push 16 (OReg (Reg16 20)) m))
  /\ snd (push_op (OReg (Reg32 4)) env_x 0) = Err ERR_BAD_COMBINATION.
Proof. exact push_small_extended. Qed.
Print Assumptions C26_push_small_extended_refuted.
